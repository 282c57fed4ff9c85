(** * PlusJson: the JSON text of an EGTS-PLUS subrecord in Package.ToBytes
    (libs/egts/egts_pkg.go:227-230), that is encoding/json.Marshal of StorageRecord
    with the json tags of libs/egts/egts_sr_egtsplus_data.go.  No proofs here.
    Every tag says omitempty: a nil pointer, an empty slice and an empty []byte
    are left out; XXX_unrecognized is tagged "-".  The enum has no MarshalJSON
    (:183 is UnmarshalJSON only), so that a reason is a number.
    [ft32] is the text of a finite float32, given by its bits. *)
From Coq Require Import Ascii String List.
From Verif Require Import GoBase Float64 Storage Json PkgJson Proto.
Import ListNotations.
Local Open Scope N_scope.

(** The sensor structs in the order of their numbers in StorageRecord, 7 to 24:
    json name and protobuf number of each field, in the order of the struct. *)
Definition leaf_tags : list (list (string * N)) :=
  [
    (* 7 SensNdNavData :1018-1027 *)
    [("sens_num", 1); ("longitude", 2); ("latitude", 3); ("altitude", 4); ("speed", 5); ("course", 6);
     ("sat_count", 7); ("pdop", 8); ("track", 9); ("odometer", 10)];
    (* 8 SensFuelLevel :892-897 *)
    [("sens_num", 1); ("value", 2); ("parrots", 3); ("unit", 4); ("t", 5); ("status", 6)];
    [("sens_num", 1); ("mv", 2)];   (* 9 SensAinAinValue :488-489 *)
    [("sens_num", 1); ("device", 2); ("external", 3)];   (* 10 SensDinsFlags :798-800 *)
    [("sens_num", 1); ("value", 2)];   (* 11 SensCounterCount :738-739 *)
    [("sens_num", 1); ("value", 2)];   (* 12 SensFmeterFrequency :866-867 *)
    (* 13 SensGsmCellMonotoringCellMonitoring :950-956 *)
    [("sens_num", 1); ("lac", 4); ("cid", 5); ("rssi", 6); ("time_adv", 7); ("mcc", 2); ("mnc", 3)];
    [("sens_num", 1); ("state", 2)];   (* 14 SensButtonPressCounter :548-549 *)
    [("sens_num", 1); ("status", 2); ("temperature", 3)];   (* 15 SensTermoData :1174-1176 *)
    (* 16 SensCanLogData :574-588 *)
    [("sens_num", 1); ("flag_security_state", 2); ("flag_alarm", 3); ("engine_time_all", 4);
     ("engine_turn_speed", 5); ("engine_temperature", 6); ("fuel_consumption_all", 7); ("fuel_level", 8);
     ("track_all", 9); ("speed", 10); ("pressure_axis_1", 11); ("pressure_axis_2", 12); ("pressure_axis_3", 13);
     ("pressure_axis_4", 14); ("pressure_axis_5", 15)];
    [("sens_num", 1); ("flags_high", 2); ("flags_low", 3)];   (* 17 SensCanLogTmpDataExt :704-706 *)
    (* 18 SensAccelerometerData :422-428 *)
    [("sens_num", 1); ("buf", 2); ("atm", 3); ("frequency", 4); ("range", 5); ("format", 6); ("zlib", 7)];
    [("sens_num", 1); ("device", 2); ("external", 3)];   (* 19 SensDoutsFlags :832-834 *)
    [("sens_num", 1); ("data", 2); ("is_packed", 3)];   (* 20 SensBufferData :514-516 *)
    (* 21 SensStorInfo :1108-1114 *)
    [("sens_num", 1); ("id_max", 2); ("id_min", 3); ("tm_oldest", 4); ("tm_oldest_unack", 5); ("cnt_unack", 6);
     ("cnt_unack_losted", 7)];
    (* 22 SensTrackerInfo :1306-1310 *)
    [("sens_num", 1); ("cnt_ack", 2); ("cnt_ack_realtime", 3); ("cnt_noack", 4); ("cnt_connect", 5)];
    (* 23 SensTestEraTests :1208-1218 *)
    [("sens_num", 1); ("mic_con_failure", 2); ("mic_failure", 3); ("ignition_failure", 4); ("uim_failure", 5);
     ("bat_failure", 6); ("bat_volt_low", 7); ("crash_sens_failure", 8); ("raim_problem", 9);
     ("gnss_antenna_failure", 10); ("events_memory_overflow", 11)];
    [("sens_num", 1); ("energy", 2); ("is_overturned", 3)]   (* 24 SensCrashData :764-766 *)
  ]%string.
(** The sensors in StorageRecord, in the order of the struct (:203-237). *)
Definition sensor_tags : list (string * N) :=
   [("sens_accelerometer_data", 18); ("sens_ain_ain_value", 9); ("sens_buffer_data", 20);
   ("sens_button_press_counter", 14); ("sens_can_log_data", 16); ("sens_can_log_tmp_data_ext", 17);
   ("sens_counter_count", 11); ("sens_crash_data", 24); ("sens_dins_flags", 10); ("sens_douts_flags", 19);
   ("sens_fmeter_frequency", 12); ("sens_fuel_level", 8); ("sens_gsm_cell_monotoring_cell_monitoring", 13);
   ("sens_nd_nav_data", 7); ("sens_stor_info", 21); ("sens_termo_data", 15); ("sens_test_era_tests", 23);
   ("sens_tracker_info", 22)]%string.

Section Marshal.
Variable ft32 : N -> gostr.

(** floatEncoder(32): UnsupportedValueError for NaN and the infinities, whose
    exponent bits are all ones *)
Definition json_float32 (bits : N) : option gostr :=
  if bits / 8388608 mod 256 =? 255 then None else Some (ft32 bits).
Definition json_pval (v : pval) : option gostr :=
  match v with
  | VNum n => Some (json_uint n)
  | VBool x => Some (if x then ltext "true" else ltext "false")
  | VInt z => Some (json_int z)
  | VFloat bits => json_float32 bits
  | VBytes s => Some (json_bytes s)
  end.
(** isEmptyValue of a pointer or []byte field *)
Definition empty_field (o : option pval) : bool :=
  match o with None | Some (VBytes []) => true | _ => false end.
(** structEncoder: the fields that are not left out; an error in one is an error. *)
Definition json_members (fs : list (string * option gostr)) : option gostr :=
  match all_some (map (fun kv => match snd kv with Some t => Some (fst kv, t) | None => None end) fs) with
  | Some fs => Some (json_struct fs)
  | None => None
  end.
Definition leaf_members (tags : list (string * N)) (x : leaf) : list (string * option gostr) :=
  flat_map (fun kn => let o := nth (N.to_nat (snd kn - 1)) (lf_vals x) None in
                      if empty_field o then []
                      else [(fst kn, match o with Some v => json_pval v | None => None end)]) tags.
Definition json_leaf (tags : list (string * N)) (x : leaf) : option gostr := json_members (leaf_members tags x).

Definition opt_member (k : string) (o : option N) : list (string * option gostr) :=
  match o with Some n => [(k, Some (json_uint n))] | None => [] end.
(** a repeated field *)
Definition slice_member (k : string) (l : list (option gostr)) : list (string * option gostr) :=
  match l with
  | [] => []
  | _ => [(k, match all_some l with Some ts => Some (json_array ts) | None => None end)]
  end.
Definition sensor_members (m : storage_record) : list (string * option gostr) :=
  flat_map (fun kn => let i := N.to_nat (snd kn - 7) in
                      slice_member (fst kn) (map (json_leaf (nth i leaf_tags [])) (nth i (sr_sensors m) [])))
           sensor_tags.
(** StorageRecord (:193-239) *)
Definition plus_json (m : storage_record) : option gostr :=
  json_members
    (opt_member "record_number" (sr_number m) ++ opt_member "time_stamp" (sr_time m)
     ++ slice_member "record_reason" (map (fun z => Some (json_int z)) (sr_reasons m))
     ++ opt_member "status_flags" (sr_flags m) ++ sensor_members m).
End Marshal.
