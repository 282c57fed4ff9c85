(** * Prop_Reuse: C118. *)
From Verif Require Import GoBase Float64 SubRecords Records Reuse Spec_Bits Spec_Wf Spec_Reuse ReuseFacts Vectors.

(** ** C118: decoding into a used structure gives what decoding into a new one
    gives.  Refuted: a position without altitude, decoded into a structure that
    held an altitude of 300 m, reports 300 m; a terminal identity without IMEI
    keeps the IMEI of the terminal before it; and a set of records grows. *)
Definition ground : bytes :=
  [177; 9; 2; 16; 107; 84; 99; 152; 165; 53; 57; 53; 1; 0; 0; 0; 0; 0; 0; 0; 0].
Definition high {E : go_env} (e : pos_data) : pos_data :=
  {| NavigationTime := NavigationTime e; Latitude := Latitude e; Longitude := Longitude e;
     ALTE := s1; LOHS := LOHS e; LAHS := LAHS e; MV := MV e; BB := BB e; CS := CS e; FIX := FIX e; VLD := VLD e;
     DirectionHighestBit := 0; AltitudeSign := 0; Speed := 0; Direction := 0; Odometer := 0; DigitalInputs := 0; Source := 0;
     Altitude := 300 |}.
Definition other_terminal : term_ident :=
  {| TID := 1; MNE := s0; BSE := s0; NIDE := s0; SSRA := s0; LNGCE := s0; IMSIE := s0; IMEIE := s1; HDIDE := s0;
     HDID := 0; IMEI := repeat 51 15; IMSI := []; LNGC := []; NID := []; BS := 0; MSISDN := [] |}.
Theorem C118_used_is_new_refuted : forall E : go_env,
  (exists e e', pos_decode ground = Ok e /\ sr_decode_into (SRPos (high e)) ground = Ok (SRPos e') /\
     Altitude e = 0 /\ Altitude e' = 300 /\ ALTE e' = s0) /\
  (exists e e', term_decode [2; 0; 0; 0; 0] = Ok e /\ sr_decode_into (SRTerm other_terminal) [2; 0; 0; 0; 0] = Ok (SRTerm e') /\
     IMEI e = [] /\ TID e' = 2 /\ IMEI e' = repeat 51 15) /\
  (exists l, rds_decode [9; 1; 0; 0] = Ok l /\ rds_decode_into l [9; 1; 0; 0] = Ok (l ++ l) /\ length l = 1%nat).
Proof.
  intros E. split; [|split].
  - eexists _, _. split; [reflexivity|]. split; [reflexivity|]. repeat split; reflexivity.
  - eexists _, _. split; [vm_compute; reflexivity|]. split; [vm_compute; reflexivity|]. repeat split; reflexivity.
  - eexists. split; [vm_compute; reflexivity|]. split; [vm_compute; reflexivity|]. reflexivity.
Qed.

(** Exactly, for every subrecord type, every structure of it and every content:
    the same contents are accepted, and the result is that of a new structure
    with the absent optional fields replaced by the old ones. *)
Theorem C118_used_exactly : forall (E : go_env) o content,
  sr_decode_into o content = rmap (kept o content) (fresh o content).
Proof. exact @into_exact. Qed.
Theorem C118_same_result_iff : forall (E : go_env) o content e, fresh o content = Ok e ->
  (sr_decode_into o content = fresh o content <-> kept o content e = e).
Proof.
  intros E o content e H. rewrite into_exact, H. cbn [rmap bind]. split; [|intros ->; reflexivity].
  intros Hk. injection Hk. auto.
Qed.
(** Confirmations of packets keep an old list of records when none follows. *)
Theorem C118_pt_response_exactly : forall (E : go_env) o content, ptr_decode_into o content =
  rmap (fun p => {| RPID := RPID p; PR := PR p; SDRS := match SDRS p with None => SDRS o | Some l => Some l end |}) (ptr_decode content).
Proof. exact @ptr_into. Qed.
(** Partial: subrecords without optional fields. *)
Theorem C118_used_is_new_partial : forall (E : go_env) o content,
  match o with
  | SRPos _ | SRTerm _ | SRExt _ | SRAd _ | SRCounters _ | SRAuth _ => False
  | _ => True
  end -> sr_decode_into o content = fresh o content.
Proof. intros E o content H. destruct o; try contradiction; reflexivity. Qed.
(** Contents that are accepted, with and without the optional field. *)
Example C118_example : forall E : go_env,
  (exists e, fresh (SRTerm other_terminal) [2; 0; 0; 0; 0] = Ok e /\ kept (SRTerm other_terminal) [2; 0; 0; 0; 0] e <> e) /\
  (exists e, fresh (SRTerm other_terminal) ([2; 0; 0; 0; 2] ++ repeat 52 15) = Ok e /\
     kept (SRTerm other_terminal) ([2; 0; 0; 0; 2] ++ repeat 52 15) e = e) /\
  exists e, fresh (SRAuth {| UNM := [1]; UPSW := [2]; SSQ := [3] |}) [65; 0; 66; 0] = Ok e.
Proof.
  intros E. split; [|split].
  - eexists. split; [vm_compute; reflexivity|]. vm_compute. discriminate.
  - eexists. split; [vm_compute; reflexivity|]. vm_compute. reflexivity.
  - eexists. vm_compute. reflexivity.
Qed.
Print Assumptions C118_used_is_new_refuted.
Print Assumptions C118_used_exactly.
Print Assumptions C118_same_result_iff.
Print Assumptions C118_pt_response_exactly.
Print Assumptions C118_used_is_new_partial.
