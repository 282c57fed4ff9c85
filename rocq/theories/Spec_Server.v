(** * Spec_Server: what a client and the operator of the receiver observe,
    stated on packets, decoded records and actions. *)
From Verif Require Import GoBase Crc Float64 SubRecords Records Package Storage Server
  Spec_Bits Spec_Wf Spec_Rec Spec_Pkg.

Section SpecServer.
Context {E : go_env}.

(** ** Packets on the wire *)

(** The number of bytes a packet occupies on the wire according to its header:
    HL, plus FDL and two checksum bytes when there is a body. *)
Definition wire_len (b : bytes) : N :=
  decl_hl b + (if 0 <? decl_fdl b then decl_fdl b + 2 else 0).

(** [b] is exactly one packet: protocol version 1 and as many bytes as its
    header declares (at least the ten the receiver reads first; the upper bound
    is what fits the receiver's 16-bit arithmetic). *)
Definition framed (b : bytes) : Prop :=
  bytes_ok b = true /\ byte_at b 0 = 1 /\ blen b = wire_len b /\ 10 <= wire_len b < 65546.

(** Decode accepts [b] and gives [p], whatever lies behind the slice. *)
Definition decodes_to (b : bytes) (p : package) : Prop :=
  forall spare, pkg_decode pkg0 (mkSlice b spare) = (p, DRet 0 false).

(** Decode returns on [b], whatever the capacity of the slice. *)
Definition survives (b : bytes) : Prop :=
  forall spare, snd (pkg_decode pkg0 (mkSlice b spare)) <> DPanic.

(** ** Contents of an application-data packet *)
Definition subrecords (l : list sdr) : list srdata := flat_map (fun s => map SRD (RD s)) l.

(** its positions, in order of appearance *)
Definition positions (l : list sdr) : list pos_data :=
  flat_map (fun d => match d with SRPos e => [e] | _ => [] end) (subrecords l).
(** it confirms records of ours *)
Definition confirms (l : list sdr) : bool :=
  existsb (fun d => match d with SRResp _ _ => true | _ => false end) (subrecords l).
(** the terminal's own identifications, in order *)
Definition imeis (l : list sdr) : list gostr :=
  flat_map (fun d => match d with SRTerm e => [IMEI e] | _ => [] end) (subrecords l).
(** it carries the counters 110 or 111, which override the packet number *)
Definition numbered (l : list sdr) : bool :=
  existsb (fun d => match d with
                    | SRAbsCntr e => (CounterNumber e =? 110) || (CounterNumber e =? 111)
                    | _ => false end) (subrecords l).
(** it carries credentials *)
Definition credentials (l : list sdr) : bool :=
  existsb (fun d => match d with SRAuth _ | SRTerm _ => true | _ => false end) (subrecords l).

(** the analogue readings of one subrecord, as (sensor number, value) *)
Definition oct_list {A} (o : oct A) : list A := [o1 o; o2 o; o3 o; o4 o; o5 o; o6 o; o7 o; o8 o].
Definition analogue (d : srdata) : list (N * N) :=
  match d with
  | SRAd e =>
      map snd (filter (fun x => is1 (fst x))
        (combine (oct_list (ASFE e)) (combine [1;2;3;4;5;6;7;8] (oct_list (ANS e)))))
  | SRAbsAn e => [(SensorNumber e, Value e)]
  | _ => []
  end.
(** the liquid-level readings *)
Definition liquids (l : list sdr) : list liquid :=
  flat_map (fun d => match d with SRLiquid e => [e] | _ => [] end) (subrecords l).
(** the stored form of a reading: millimetres for units "00" and "01", litres
    in tenths for "10" *)
Definition liquid_stored (e : liquid) (s : liquid_sensor) : Prop :=
  lqNumber s = LLSN e /\ lqModule s = MADDR e /\ lqError s = LLSEF e /\ lqUnit s = LLSVU e /\
  ((LLSVU e = [ch0; ch0] \/ LLSVU e = [ch0; ch1]) -> lqMm s = LLSD e /\ lqL s = f_of_N 0) /\
  (LLSVU e = [ch1; ch0] -> lqMm s = 0 /\ lqL s = f_div (f_of_N (LLSD e)) (f_of_N 10)) /\
  (LLSVU e = [ch1; ch1] -> lqMm s = 0 /\ lqL s = f_of_N 0).
(** the stored form of a position *)
Definition loc_stored (e : pos_data) (s : loc_state) : Prop :=
  lsLat s = Latitude e /\ lsLng s = Longitude e /\ lsSpeed s = Speed e /\
  lsNavDt s = rfc3339 (NavigationTime e).

(** ** Replies *)

Definition confirmation (n : N) : record_data := {| SRT := 0; SRL := 3; SRD := SRResp n 0 |}.

(** [b] is one well-framed packet that decodes to the EGTS_PT_RESPONSE for
    packet [pid] with result [code], confirming the record numbers [nums] for
    service [svc]; it has 16 bytes, plus 7 and 6 for each confirmation. *)
Definition is_ack (b : bytes) (pid code svc : N) (nums : list N) : Prop :=
  framed b /\
  blen b = 16 + match nums with [] => 0 | _ :: _ => 7 + 6 * N.of_nat (length nums) end /\
  exists p r, decodes_to b p /\ pPT p = 0 /\ pPID p = (pid + 1) mod 65536 /\
    pSFRD p = Some (FResp r) /\ RPID r = pid /\ PR r = code /\
    match nums with
    | [] => SDRS r = None
    | _ :: _ => exists s, SDRS r = Some [s] /\ RN s = 1 /\ SST s = svc /\ RST s = svc /\
                          RD s = map confirmation nums
    end.

(** The packet that answers credentials in packet [pid]: one record of service 1
    with the subrecord EGTS_SR_RESULT_CODE, code 0 — but sent under packet type
    0 (EGTS_PT_RESPONSE). *)
Definition result_packet (pid : N) : bytes :=
  let hdr := [1; 0; 0; 11; 0; 11; 0] ++ le_enc 2 ((pid + 1) mod 65536) ++ [0] in
  let body := [4; 0; 1; 0; 32; 1; 1] ++ [9; 1; 0; 0] in
  hdr ++ [crc8 hdr] ++ body ++ le_enc 2 (crc16 body).

(** What the receiver does with an accepted application-data packet holding the
    records [l]: nothing if it confirms records of ours; otherwise save (if
    there are positions), acknowledge, and answer credentials. *)
Definition app_actions (pid : N) (l : list sdr) (acts : list action) : Prop :=
  if confirms l then acts = []
  else exists rec ack,
    acts = (match positions l with [] => [] | _ :: _ => [ASave rec] end)
           ++ [AWrite ack] ++ (if credentials l then [AWrite (result_packet pid)] else []) /\
    Forall2 loc_stored (positions l) (nrLocs rec) /\
    nrCount rec = N.of_nat (length (positions l)) /\
    map (fun s => (anNumber s, anValue s)) (nrAn rec) = flat_map analogue (subrecords l) /\
    Forall2 liquid_stored (liquids l) (nrLiq rec) /\
    nrClientID rec = OID (last l {| RL := 0; RN := 0; SSOD := []; RSOD := []; GRP := []; RPP := [];
       TMFE := []; EVFE := []; OBFE := []; OID := 0; EVID := 0; TM := 0; SST := 0; RST := 0; RD := [] |}) /\
    nrServerID rec = [69;71;84;83;95;71;65;84;69;48] /\
    nrIMEI rec = last (imeis l) [] /\
    nrNavTs rec = last (map (fun e => unix_of (NavigationTime e)) (positions l)) 0%Z /\
    (numbered l = false -> nrPacketID rec = pid) /\
    exists svc, is_ack ack pid 0 svc (map RN l) /\
      (forall s l', l = l' ++ [s] -> svc = SST s).

(** What the receiver does with one packet [b]. *)
Definition packet_actions (b : bytes) (acts : list action) : Prop :=
  exists p code err, (forall spare, pkg_decode pkg0 (mkSlice b spare) = (p, DRet code err)) /\
  pPID p = word_at b 7 /\
  (* rejected: one negative acknowledgement, nothing saved *)
  (err = true -> code <> 0 /\ exists ack, acts = [AWrite ack] /\ is_ack ack (pPID p) code 0 []) /\
  (* accepted *)
  (err = false -> code = 0 /\
     ((pPT p = 0 /\ acts = [] /\ exists r, pSFRD p = Some (FResp r)) \/
      (pPT p = 1 /\ exists l, pSFRD p = Some (FSds l) /\ app_actions (pPID p) l acts))).

(** A well-framed packet on which Decode returns. *)
Definition good (b : bytes) : Prop := framed b /\ survives b.

(** Input that is not (yet) a packet: a proper beginning of one, or ten bytes
    that do not start with protocol version 1. *)
Definition incomplete (s : bytes) : Prop :=
  bytes_ok s = true /\ ((length s < 10)%nat \/ exists more, more <> [] /\ framed (s ++ more)).
Definition alien (s : bytes) : Prop :=
  bytes_ok s = true /\ (10 <= length s)%nat /\ byte_at s 0 <> 1.

(** The peer sends the packets [pkts], then [s], in any chunks. *)
Definition carries (c : conn_in) (pkts : list bytes) (s : bytes) : Prop :=
  concat (ci_chunks c) = concat pkts ++ s /\ Forall good pkts /\ (incomplete s \/ alien s).

(** The packets written, and the records handed to storage, in order. *)
Definition saves (acts : list action) : list nav_record :=
  flat_map (fun a => match a with ASave n => [n] | AWrite _ => [] end) acts.
Definition writes (acts : list action) : list bytes :=
  flat_map (fun a => match a with AWrite b => [b] | ASave _ => [] end) acts.

End SpecServer.

(** ** Executions with many connections *)
Section SpecGlobal.
Context {E : go_env}.

(** The events of connection [i] in a trace, oldest first. *)
Definition events_of (i : nat) (tr : list (nat * event)) : list event :=
  map snd (filter (fun x => Nat.eqb (fst x) i) tr).
(** Its completed actions: the packets written and the records whose Save
    returned, in order. *)
Definition actions_of (i : nat) (tr : list (nat * event)) : list action :=
  flat_map (fun e => match e with
                     | EWrite b => [AWrite b]
                     | ESaved n _ => [ASave n]
                     | ECall _ _ _ => []
                     end) (events_of i tr).
(** The records connection [i] handed to storage [k], in order. *)
Definition calls_of (i k : nat) (tr : list (nat * event)) : list nav_record :=
  flat_map (fun e => match e with
                     | ECall k' n _ => if Nat.eqb k k' then [n] else []
                     | _ => []
                     end) (events_of i tr).
(** how often connection [i] is scheduled *)
Definition turns (i : nat) (sched : list nat) : nat := count_occ Nat.eq_dec sched i.
(** input made of bytes *)
Definition in_ok (c : conn_in) : Prop := bytes_ok (concat (ci_chunks c)) = true.
(** enough turns: a number depending only on the connection's own bytes and the
    number of storages *)
Definition turns_needed (nstores : nat) (c : conn_in) : nat :=
  (S nstores * length (fst (conn_exec c)) + length (concat (ci_chunks c)) + 1)%nat.

(** One Save of [n] with [m] storages: they are called one after the other, each
    once; the first error ends the Save and is its result. *)
Inductive one_save (m : nat) (n : nav_record) : list event -> save_out -> Prop :=
| save_all : one_save m n (map (fun k => ECall k n SvOk) (seq 0 m) ++ [ESaved n SvOk]) SvOk
| save_err k : (k < m)%nat ->
    one_save m n (map (fun k => ECall k n SvOk) (seq 0 k) ++ [ECall k n SvErr; ESaved n SvErr]) SvErr.
(** The events of a goroutine that performs the given actions in order. *)
Inductive performs (m : nat) : list action -> list event -> Prop :=
| perf_nil : performs m [] []
| perf_write acts evs b : performs m acts evs -> performs m (acts ++ [AWrite b]) (evs ++ [EWrite b])
| perf_save acts evs n s o : performs m acts evs -> one_save m n s o ->
    performs m (acts ++ [ASave n]) (evs ++ s).

End SpecGlobal.
