(** * Reason: the enumeration StorageRecordReason of
    libs/egts/egts_sr_egtsplus_data.go:48-190 and its JSON.  No proofs here. *)
From Coq Require Import String Ascii List.
From Verif Require Import GoBase Json.
Import ListNotations.
Local Open Scope N_scope.

(** egts_sr_egtsplus_data.go:92-132 *)
Definition reason_names : list (Z * string) := [
  (1, "DEVICE_RESET"); (2, "PROFILE_CHANGE"); (3, "IGNITION_ON"); (4, "IGNITION_OFF");
  (5, "TRIP_BEGIN"); (6, "TRIP_END"); (7, "STOP"); (8, "MOVE");
  (9, "TOWING_BEGIN"); (10, "TOWING_END"); (11, "TIMER_MOVE"); (12, "TIMER_STOP");
  (13, "ANGLE"); (14, "DISTANCE"); (15, "SOS_BUTTON"); (16, "SERVICE_BUTTON");
  (17, "TAMPER"); (18, "ANTENNA_SWITCH"); (19, "GSM_LOST"); (20, "GSM_RECONNECT");
  (21, "GNSS_LOST"); (22, "GNSS_REAQUISITION"); (23, "JAMMER_GSM"); (24, "JAMMER_GNSS");
  (25, "OVER_SPEED"); (26, "OVER_RPM"); (27, "OVER_TEMPERATURE"); (28, "DANGEROUS_DRIVING");
  (29, "ACCIDENT"); (30, "OVERTHROW"); (31, "ON_BATTERY"); (32, "BATTERY_DISCHARGE");
  (33, "RADIO_TAG_REG"); (34, "RADIO_TAG_UNREG"); (35, "MOVE_WITHOUT_RADIO_TAG"); (36, "ECU_ERROR_CODE");
  (37, "EXTERNAL_REQUEST"); (38, "DEVICE_TEST"); (99, "OTHER_REASON")]%Z%string.
(** egts_sr_egtsplus_data.go:133-173 *)
Definition reason_values : list (Z * string) := [
  (1, "DEVICE_RESET"); (2, "PROFILE_CHANGE"); (3, "IGNITION_ON"); (4, "IGNITION_OFF");
  (5, "TRIP_BEGIN"); (6, "TRIP_END"); (7, "STOP"); (8, "MOVE");
  (9, "TOWING_BEGIN"); (10, "TOWING_END"); (11, "TIMER_MOVE"); (12, "TIMER_STOP");
  (13, "ANGLE"); (14, "DISTANCE"); (15, "SOS_BUTTON"); (16, "SERVICE_BUTTON");
  (17, "TAMPER"); (18, "ANTENNA_SWITCH"); (19, "GSM_LOST"); (20, "GSM_RECONNECT");
  (21, "GNSS_LOST"); (22, "GNSS_REAQUISITION"); (23, "JAMMER_GSM"); (24, "JAMMER_GNSS");
  (25, "OVER_SPEED"); (26, "OVER_RPM"); (27, "OVER_TEMPERATURE"); (28, "DANGEROUS_DRIVING");
  (29, "ACCIDENT"); (30, "OVERTHROW"); (31, "ON_BATTERY"); (32, "BATTERY_DISCHARGE");
  (33, "RADIO_TAG_REG"); (34, "RADIO_TAG_UNREG"); (35, "MOVE_WITHOUT_RADIO_TAG"); (36, "ECU_ERROR_CODE");
  (37, "EXTERNAL_REQUEST"); (38, "DEVICE_TEST"); (99, "OTHER_REASON")]%Z%string.

(** :180-182, proto.EnumName (golang/protobuf v1.5.2): the name, or
    strconv.Itoa *)
Fixpoint name_of (l : list (Z * string)) (z : Z) : option string :=
  match l with
  | [] => None
  | (z', s) :: l' => if (z' =? z)%Z then Some s else name_of l' z
  end.
Definition reason_string (z : Z) : gostr :=
  match name_of reason_names z with Some s => ltext s | None => json_int z end.

(** encoding/json, decode.go: white space *)
Definition blank (c : N) : bool := (c =? 32) || (c =? 9) || (c =? 10) || (c =? 13).
Fixpoint skip_blank (s : gostr) : gostr :=
  match s with c :: s' => if blank c then skip_blank s' else s | [] => [] end.
(** scanner.go: stateInStringEscU; decode.go: getu4 *)
Definition hex_digit_value (c : N) : option N :=
  if (48 <=? c) && (c <=? 57) then Some (c - 48)
  else if (97 <=? c) && (c <=? 102) then Some (c - 97 + 10)
  else if (65 <=? c) && (c <=? 70) then Some (c - 65 + 10)
  else None.
Definition getu4 (a b c d : N) : option N :=
  match hex_digit_value a, hex_digit_value b, hex_digit_value c, hex_digit_value d with
  | Some a, Some b, Some c, Some d => Some (((a * 16 + b) * 16 + c) * 16 + d)
  | _, _, _, _ => None
  end.
(** utf8.EncodeRune for a rune below 2^16; a surrogate is written as U+FFFD.
    Simplified: a pair of surrogates gives two of them instead of one character
    above 2^16; neither is part of a name. *)
Definition encode_rune (r : N) : gostr :=
  if r <? 128 then [r]
  else if r <? 2048 then [192 + r / 64; 128 + r mod 64]
  else if (55296 <=? r) && (r <? 57344) then [239; 191; 189]
  else [224 + r / 4096; 128 + (r / 64) mod 64; 128 + r mod 64].
Definition put_front (p : gostr) (o : option (gostr * gostr)) : option (gostr * gostr) :=
  match o with Some (t, r) => Some (p ++ t, r) | None => None end.
(** scanner.go: stateInString; decode.go: unquote: the string after its opening
    quote, and what follows the closing one.  Simplified: malformed UTF-8 is
    kept, where Go puts U+FFFD; neither is part of a name. *)
Fixpoint unquote (s : gostr) : option (gostr * gostr) :=
  match s with
  | [] => None
  | c :: r =>
      if c =? 34 then Some ([], r)
      else if c =? 92 then
        match r with
        | [] => None
        | e :: r1 =>
            if e =? 117 then
              match r1 with
              | h1 :: h2 :: h3 :: h4 :: r2 =>
                  match getu4 h1 h2 h3 h4 with
                  | Some x => put_front (encode_rune x) (unquote r2)
                  | None => None
                  end
              | _ => None
              end
            else if (e =? 34) || (e =? 92) || (e =? 47) then put_front [e] (unquote r1)
            else if e =? 98 then put_front [8] (unquote r1)
            else if e =? 102 then put_front [12] (unquote r1)
            else if e =? 110 then put_front [10] (unquote r1)
            else if e =? 114 then put_front [13] (unquote r1)
            else if e =? 116 then put_front [9] (unquote r1)
            else None
        end
      else if c <? 32 then None
      else put_front [c] (unquote r)
  end.
(** the map lookup m[repr] *)
Fixpoint value_named (l : list (Z * string)) (n : gostr) : option Z :=
  match l with
  | [] => None
  | (z, s) :: l' => if str_eqb (ltext s) n then Some z else value_named l' n
  end.
(** the digits at the front *)
Definition decimal_digit (c : N) : bool := (48 <=? c) && (c <=? 57).
Fixpoint digits (s : gostr) : gostr * gostr :=
  match s with
  | [] => ([], [])
  | c :: s' => if decimal_digit c then let '(d, r) := digits s' in (c :: d, r) else ([], s)
  end.
(** json.Unmarshal into an int32 (decode.go: literalStore): null leaves the zero;
    a number is read by strconv.ParseInt, which takes no fraction and no
    exponent; anything else is an error *)
Definition read_int32 (b : gostr) : option Z :=
  match skip_blank b with
  | [] => None
  | c :: s' =>
      if c =? 110 then
        match s' with
        | u :: l :: l' :: r =>
            if (u =? 117) && (l =? 108) && (l' =? 108)
            then match skip_blank r with [] => Some 0%Z | _ => None end
            else None
        | _ => None
        end
      else
        let '(d, r) := digits (if c =? 45 then s' else c :: s') in
        match d with
        | [] => None
        | x :: d' =>
            if (x =? 48) && match d' with [] => false | _ => true end then None    (* 01 *)
            else match skip_blank r with
                 | _ :: _ => None
                 | [] =>
                     let n := fold_left (fun a c => 10 * a + (Z.of_N c - 48))%Z d 0%Z in
                     let v := if c =? 45 then (- n)%Z else n in
                     if ((- 2 ^ 31 <=? v) && (v <? 2 ^ 31))%Z then Some v else None
                 end
        end
  end.

(** :183-190, proto.UnmarshalJSONEnum (golang/protobuf v1.5.2,
    proto/registry.go); data[0] panics when there is none. *)
Inductive rres := RVal (z : Z) | RErr | RPanic.
Definition reason_json (b : gostr) : rres :=
  match b with
  | [] => RPanic
  | c :: s =>
      if c =? 34 then
        match unquote s with
        | Some (n, r) =>
            match skip_blank r with
            | [] => match value_named reason_values n with Some z => RVal z | None => RErr end
            | _ => RErr
            end
        | None => RErr
        end
      else match read_int32 b with Some z => RVal z | None => RErr end
  end.
