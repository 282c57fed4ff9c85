(** * Spec_Main: what the operator of a receiver expects of the running process. *)
From Verif Require Import GoBase Float64 SubRecords Records Package Storage Connectors Json Server Main
  Spec_Rec Spec_Pkg Spec_Server Spec_Storage Spec_Json.

(** The configuration section [e] names a documented storage that opens as [c]. *)
Definition section_opens (lib : lib_call -> bool) (e : gostr * section) (c : conn) : Prop :=
  exists k, documented (fst e) k /\ connector_init lib k (snd e) = Some c.

Section SpecMain.
Context {E : go_env}.

(** [b] is accepted and holds the records [l], with positions, to be stored. *)
Definition reports (b : bytes) (l : list sdr) : Prop :=
  exists p, decodes_to b p /\ pSFRD p = Some (FSds l) /\ confirms l = false /\ positions l <> [].

(** [rec] is the record of the positions and readings in [l]. *)
Definition recorded (l : list sdr) (rec : nav_record) : Prop :=
  Forall2 loc_stored (positions l) (nrLocs rec) /\ nrCount rec = N.of_nat (length (positions l)) /\
  map (fun s => (anNumber s, anValue s)) (nrAn rec) = flat_map analogue (subrecords l) /\
  Forall2 liquid_stored (liquids l) (nrLiq rec) /\
  nrClientID rec = last (map OID l) 0 /\ nrIMEI rec = last (imeis l) [] /\
  nrNavTs rec = last (map (fun e => unix_of (NavigationTime e)) (positions l)) 0%Z.

(** the library calls connection [i] made at one storage *)
Definition by_conn (i : nat) (l : list (nat * lib_call)) : list lib_call :=
  map snd (filter (fun x => Nat.eqb (fst x) i) l).

(** [call] carries a JSON document of [rec] to the destination of section [m]. *)
Definition delivers (jf : f64 -> json) (kind : store_kind) (m : list (gostr * gostr)) (rec : nav_record) (call : lib_call) : Prop :=
  exists b rdt v, destination kind m b call /\ read_json b = Some v /\ record_doc jf rdt rec v.

(** What one packet makes a storage receive: one document if it reports
    positions, otherwise nothing. *)
Definition packet_delivered (jf : f64 -> json) (kind : store_kind) (m : list (gostr * gostr)) (b : bytes) (calls : list lib_call) : Prop :=
  (forall l, reports b l -> exists rec call, calls = [call] /\ recorded l rec /\ delivers jf kind m rec call) /\
  ((forall l, ~ reports b l) -> calls = []).
End SpecMain.
