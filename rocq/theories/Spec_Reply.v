(** * Spec_Reply: the vocabulary of the properties about undelivered replies. *)
From Verif Require Import GoBase Crc Float64 SubRecords Records Package Storage Server Reply
  Spec_Bits Spec_Wf Spec_Rec Spec_Pkg Spec_Server.

(** the records handed to storage, and the replies delivered, in order *)
Definition saved_of (d : list done) : list nav_record :=
  flat_map (fun x => match x with DSaved n => [n] | _ => [] end) d.
Definition sent_of (d : list done) : list bytes :=
  flat_map (fun x => match x with DSent b => [b] | _ => [] end) d.

(** The number of bytes with which the receiver answers the packet [b]: nothing
    to a confirmation, 16 to a refused packet; otherwise 16 and, when there are
    records, 7 and 6 for each of them; 24 more to credentials. *)
Definition owes {E : go_env} (b : bytes) (n : N) : Prop :=
  exists p code err, (forall spare, pkg_decode pkg0 (mkSlice b spare) = (p, DRet code err)) /\
  if err then n = 16
  else match pSFRD p with
       | Some (FSds l) =>
           n = if confirms l then 0
               else 16 + match l with [] => 0 | _ :: _ => 7 + 6 * N.of_nat (length l) end
                    + if credentials l then 24 else 0
       | _ => n = 0
       end.

(** The number of packets that are dealt with when the peer takes [room] bytes
    of replies, the replies to the packets having [ns] bytes: a packet is dealt
    with when the replies to those before it went out. *)
Fixpoint dealt_with (room : N) (ns : list N) : nat :=
  match ns with
  | [] => O
  | n :: l => S (if n <=? room then dealt_with (room - n) l else O)
  end.
Definition total (ns : list N) : N := fold_right N.add 0 ns.
