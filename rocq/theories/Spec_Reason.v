(** * Spec_Reason: the vocabulary of the properties about reasons. *)
From Coq Require Import String Ascii List.
From Verif Require Import GoBase Spec_Json.
Import ListNotations.
Local Open Scope N_scope.

(** docs/egts_sr_egtsplus_data.proto:6-47 *)
Definition declared_reasons : list (Z * string) := [
  (1, "DEVICE_RESET"); (2, "PROFILE_CHANGE"); (3, "IGNITION_ON"); (4, "IGNITION_OFF");
  (5, "TRIP_BEGIN"); (6, "TRIP_END"); (7, "STOP"); (8, "MOVE");
  (9, "TOWING_BEGIN"); (10, "TOWING_END"); (11, "TIMER_MOVE"); (12, "TIMER_STOP");
  (13, "ANGLE"); (14, "DISTANCE"); (15, "SOS_BUTTON"); (16, "SERVICE_BUTTON");
  (17, "TAMPER"); (18, "ANTENNA_SWITCH"); (19, "GSM_LOST"); (20, "GSM_RECONNECT");
  (21, "GNSS_LOST"); (22, "GNSS_REAQUISITION"); (23, "JAMMER_GSM"); (24, "JAMMER_GNSS");
  (25, "OVER_SPEED"); (26, "OVER_RPM"); (27, "OVER_TEMPERATURE"); (28, "DANGEROUS_DRIVING");
  (29, "ACCIDENT"); (30, "OVERTHROW"); (31, "ON_BATTERY"); (32, "BATTERY_DISCHARGE");
  (33, "RADIO_TAG_REG"); (34, "RADIO_TAG_UNREG"); (35, "MOVE_WITHOUT_RADIO_TAG"); (36, "ECU_ERROR_CODE");
  (37, "EXTERNAL_REQUEST"); (38, "DEVICE_TEST"); (99, "OTHER_REASON")]%Z%string.

Definition int32 (z : Z) : Prop := (- 2 ^ 31 <= z < 2 ^ 31)%Z.
(** white space of JSON *)
Definition spaces (s : gostr) : Prop := Forall (fun c => c = 32 \/ c = 9 \/ c = 10 \/ c = 13) s.
(** [t] is a way of writing [n] between quotes: each character as it is, or as
    \uXXXX *)
Inductive spells : gostr -> gostr -> Prop :=
| sp_end : spells [] []
| sp_char c n t : 32 <= c -> c <> 34 -> c <> 92 -> spells n t -> spells (c :: n) (c :: t)
| sp_u c n t h1 h2 h3 h4 : hex4 h1 h2 h3 h4 = Some c -> spells n t ->
    spells (c :: n) (92 :: 117 :: h1 :: h2 :: h3 :: h4 :: t).
(** a whole number as JSON writes it *)
Definition whole (s : gostr) (z : Z) : Prop :=
  exists d, plain_int d = true /\ ((s = d /\ z = value_of d) \/ (s = 45 :: d /\ z = (- value_of d)%Z)).
