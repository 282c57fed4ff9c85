(** * Spec_PlusJson: what the JSON document of an EGTS-PLUS message says.
    Independent of the writer in PlusJson.v. *)
From Coq Require Import Ascii String List ZArith.
From Verif Require Import GoBase Proto Spec_Json Spec_PkgJson.
Import ListNotations.
Local Open Scope N_scope.

(** The names of the sensors 7 to 24 and of their fields 1, 2, ... (the name= of
    the protobuf tags of egts_sr_egtsplus_data.go). *)
Definition sensor_names : list (string * list string) :=
  [
    ("sens_nd_nav_data", ["sens_num"; "longitude"; "latitude"; "altitude"; "speed"; "course"; "sat_count";
     "pdop"; "track"; "odometer"]);
   ("sens_fuel_level", ["sens_num"; "value"; "parrots"; "unit"; "t"; "status"]);
   ("sens_ain_ain_value", ["sens_num"; "mv"]);
   ("sens_dins_flags", ["sens_num"; "device"; "external"]);
   ("sens_counter_count", ["sens_num"; "value"]);
   ("sens_fmeter_frequency", ["sens_num"; "value"]);
   ("sens_gsm_cell_monotoring_cell_monitoring", ["sens_num"; "mcc"; "mnc"; "lac"; "cid"; "rssi"; "time_adv"]);
   ("sens_button_press_counter", ["sens_num"; "state"]);
   ("sens_termo_data", ["sens_num"; "status"; "temperature"]);
    ("sens_can_log_data", ["sens_num"; "flag_security_state"; "flag_alarm"; "engine_time_all";
     "engine_turn_speed"; "engine_temperature"; "fuel_consumption_all"; "fuel_level"; "track_all"; "speed";
     "pressure_axis_1"; "pressure_axis_2"; "pressure_axis_3"; "pressure_axis_4"; "pressure_axis_5"]);
   ("sens_can_log_tmp_data_ext", ["sens_num"; "flags_high"; "flags_low"]);
   ("sens_accelerometer_data", ["sens_num"; "buf"; "atm"; "frequency"; "range"; "format"; "zlib"]);
   ("sens_douts_flags", ["sens_num"; "device"; "external"]);
   ("sens_buffer_data", ["sens_num"; "data"; "is_packed"]);
    ("sens_stor_info", ["sens_num"; "id_max"; "id_min"; "tm_oldest"; "tm_oldest_unack"; "cnt_unack";
     "cnt_unack_losted"]);
   ("sens_tracker_info", ["sens_num"; "cnt_ack"; "cnt_ack_realtime"; "cnt_noack"; "cnt_connect"]);
    ("sens_test_era_tests", ["sens_num"; "mic_con_failure"; "mic_failure"; "ignition_failure"; "uim_failure";
     "bat_failure"; "bat_volt_low"; "crash_sens_failure"; "raim_problem"; "gnss_antenna_failure";
     "events_memory_overflow"]);
   ("sens_crash_data", ["sens_num"; "energy"; "is_overturned"])
  ]%string.

(** An object with exactly these members, in any order: no name twice, every
    member is one of the fields that are present, every such field has a member. *)
Definition members (fs : list (string * option (json -> Prop))) (ms : list (gostr * json)) : Prop :=
  NoDup (map fst ms) /\
  (forall k v, In (k, v) ms -> exists s p, k = key s /\ In (s, Some p) fs /\ p v) /\
  (forall s p, In (s, Some p) fs -> exists v, In (key s, v) ms /\ p v).
Definition jmembers (fs : list (string * option (json -> Prop))) (v : json) : Prop :=
  exists ms, v = JObj ms /\ members fs ms.

(** not a NaN or an infinity (IEEE 754 binary32) *)
Definition finite32 (bits : N) : Prop := bits / 2 ^ 23 mod 2 ^ 8 <> 2 ^ 8 - 1.

Section Describe.
(** what a reader gets from the text of a finite float32 *)
Variable jf32 : N -> json.
Definition value_doc (x : pval) (v : json) : Prop :=
  match x with
  | VNum n => v = JInt (Z.of_N n)
  | VBool b => v = JBool b
  | VInt z => v = JInt z
  | VFloat bits => v = jf32 bits
  | VBytes s => exists t, v = JStr t /\ read_b64 t = Some s
  end.
(** a field: absent when unset, and also when it is an empty byte string *)
Definition field_doc (o : option pval) : option (json -> Prop) :=
  match o with
  | None | Some (VBytes []) => None
  | Some x => Some (value_doc x)
  end.
Definition sensor_doc (names : list string) (x : leaf) : json -> Prop :=
  jmembers (combine names (map field_doc (lf_vals x))).
(** a repeated field: absent when empty *)
Definition list_doc {A} (p : A -> json -> Prop) (l : list A) : option (json -> Prop) :=
  match l with [] => None | _ => Some (jarray p l) end.
Definition plus_doc (m : storage_record) : json -> Prop :=
  jmembers
    ([("record_number", option_map jnat (sr_number m)); ("time_stamp", option_map jnat (sr_time m));
      ("record_reason", list_doc (fun z v => v = JInt z) (sr_reasons m));
      ("status_flags", option_map jnat (sr_flags m))]%string
     ++ map (fun sl => (fst (fst sl), list_doc (sensor_doc (snd (fst sl))) (snd sl))) (combine sensor_names (sr_sensors m))).
End Describe.

(** the fuel levels of a message: field 2 of its sensors 8 *)
Definition fuel_levels (m : storage_record) : list N :=
  flat_map (fun x => match nth 1 (lf_vals x) None with Some (VFloat bits) => [bits] | _ => [] end) (nth 1 (sr_sensors m) []).

(** What of a message its document can show: no unknown fields, no empty byte
    strings. *)
Definition visible_leaf (x : leaf) : leaf :=
  mkLeaf (map (fun o => match o with Some (VBytes []) => None | o => o end) (lf_vals x)) [].
Definition visible (m : storage_record) : storage_record :=
  mkSR (sr_number m) (sr_time m) (sr_reasons m) (sr_flags m) (map (map visible_leaf) (sr_sensors m)) [].
