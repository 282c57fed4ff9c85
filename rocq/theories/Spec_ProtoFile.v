(** * Spec_ProtoFile: the sensor messages as docs/egts_sr_egtsplus_data.proto
    declares them (transcribed by a script from that file, in its order; the
    model in Proto.v follows the Go structs instead).
    Each entry of storage_record that is not one of record_number, time_stamp,
    record_reason, status_flags: its number and name there, and for each field of
    the message its number, type and name. *)
From Coq Require Import String List NArith.
From Verif Require Import GoBase Proto Spec_Proto.
Import ListNotations.
Local Open Scope N_scope.

(** the types of the .proto file *)
Definition uint32 := PU32. Definition bool_ := PBool. Definition sint32 := PSint.
Definition sfixed32 := PSfix. Definition float := PFloat. Definition bytes_ := PBytes.

Definition proto_file : list (N * string * list (N * ptype * string)) := [
  (18, "sens_accelerometer_data",
    [(1, uint32, "sens_num"); (2, bytes_, "buf"); (3, uint32, "atm"); (4, uint32, "frequency"); (5, uint32,
     "range"); (6, uint32, "format"); (7, uint32, "zlib")]);
  (9, "sens_ain_ain_value",
    [(1, uint32, "sens_num"); (2, uint32, "mv")]);
  (20, "sens_buffer_data",
    [(1, uint32, "sens_num"); (2, bytes_, "data"); (3, bool_, "is_packed")]);
  (14, "sens_button_press_counter",
    [(1, uint32, "sens_num"); (2, bool_, "state")]);
  (16, "sens_can_log_data",
    [(1, uint32, "sens_num"); (2, uint32, "flag_security_state"); (3, uint32, "flag_alarm"); (4, uint32,
     "engine_time_all"); (5, uint32, "engine_turn_speed"); (6, sint32, "engine_temperature"); (7, uint32,
     "fuel_consumption_all"); (8, uint32, "fuel_level"); (9, uint32, "track_all"); (10, uint32, "speed"); (11,
     uint32, "pressure_axis_1"); (12, uint32, "pressure_axis_2"); (13, uint32, "pressure_axis_3"); (14,
     uint32, "pressure_axis_4"); (15, uint32, "pressure_axis_5")]);
  (17, "sens_can_log_tmp_data_ext",
    [(1, uint32, "sens_num"); (2, uint32, "flags_high"); (3, uint32, "flags_low")]);
  (11, "sens_counter_count",
    [(1, uint32, "sens_num"); (2, uint32, "value")]);
  (24, "sens_crash_data",
    [(1, uint32, "sens_num"); (2, uint32, "energy"); (3, bool_, "is_overturned")]);
  (10, "sens_dins_flags",
    [(1, uint32, "sens_num"); (2, uint32, "device"); (3, uint32, "external")]);
  (19, "sens_douts_flags",
    [(1, uint32, "sens_num"); (2, uint32, "device"); (3, uint32, "external")]);
  (12, "sens_fmeter_frequency",
    [(1, uint32, "sens_num"); (2, uint32, "value")]);
  (8, "sens_fuel_level",
    [(1, uint32, "sens_num"); (2, float, "value"); (3, uint32, "parrots"); (4, uint32, "unit"); (5, uint32,
     "t"); (6, uint32, "status")]);
  (13, "sens_gsm_cell_monotoring_cell_monitoring",
    [(1, uint32, "sens_num"); (4, bytes_, "lac"); (5, bytes_, "cid"); (6, bytes_, "rssi"); (7, bytes_,
     "time_adv"); (2, uint32, "mcc"); (3, uint32, "mnc")]);
  (7, "sens_nd_nav_data",
    [(1, uint32, "sens_num"); (2, sfixed32, "longitude"); (3, sfixed32, "latitude"); (4, uint32, "altitude");
     (5, uint32, "speed"); (6, uint32, "course"); (7, uint32, "sat_count"); (8, uint32, "pdop"); (9, uint32,
     "track"); (10, uint32, "odometer")]);
  (21, "sens_stor_info",
    [(1, uint32, "sens_num"); (2, uint32, "id_max"); (3, uint32, "id_min"); (4, uint32, "tm_oldest"); (5,
     uint32, "tm_oldest_unack"); (6, uint32, "cnt_unack"); (7, uint32, "cnt_unack_losted")]);
  (15, "sens_termo_data",
    [(1, uint32, "sens_num"); (2, uint32, "status"); (3, sint32, "temperature")]);
  (23, "sens_test_era_tests",
    [(1, uint32, "sens_num"); (2, bool_, "mic_con_failure"); (3, bool_, "mic_failure"); (4, bool_,
     "ignition_failure"); (5, bool_, "uim_failure"); (6, bool_, "bat_failure"); (7, bool_, "bat_volt_low");
     (8, bool_, "crash_sens_failure"); (9, bool_, "raim_problem"); (10, bool_, "gnss_antenna_failure"); (11,
     bool_, "events_memory_overflow")]);
  (22, "sens_tracker_info",
    [(1, uint32, "sens_num"); (2, uint32, "cnt_ack"); (3, uint32, "cnt_ack_realtime"); (4, uint32,
     "cnt_noack"); (5, uint32, "cnt_connect")])
]%string.

(** A message of this kind on the wire: each field declared for it has the value
    of its last occurrence. *)
Definition declared_sensor (fields : list (N * ptype * string)) (b : bytes) (x : leaf) : Prop :=
  exists l, stream l b /\
  forall k ty name, In (k, ty, name) fields -> last_one (contributes k ty) l (nth (N.to_nat (k - 1)) (lf_vals x) None).
(** the sensors a record carries under the number [num] *)
Definition declared_sensors (num : N) (fields : list (N * ptype * string)) (f : wfield) (xs : list leaf) : Prop :=
  (wf_num f = num /\ exists s x, wf_val f = WBytes s /\ declared_sensor fields s x /\ xs = [x]) \/
  ((wf_num f <> num \/ forall s, wf_val f <> WBytes s) /\ xs = []).
