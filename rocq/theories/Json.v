(** * Json: NavRecord.ToBytes (cli/receiver/storage/packet.go:20-22), that is
    encoding/json.Marshal of the struct with its tags (packet.go:7-43).  No proofs
    here.  encoding/json is not part of /repo; what is modelled is its documented
    behaviour for this struct: fields in order under their tags, a nil slice as
    null, HTML-escaped strings, invalid UTF-8 replaced by \ufffd, an error for
    NaN and infinities.  Go 1.22 and later write \b and \f for bytes 8 and 12,
    earlier versions (modelled) \u0008 and \u000c.  The text of a finite float64
    (strconv) is an arbitrary function [ft]. *)
From Coq Require Import Floats.SpecFloat Ascii String List.
From Verif Require Import GoBase Float64 Storage.
Import ListNotations.

Definition ltext (s : string) : gostr := map N_of_ascii (list_ascii_of_string s).

(** ** Strings (encoding/json encodeState.string, escapeHTML true) *)

(** const hex = "0123456789abcdef" *)
Definition hex_digit (n : N) : N := if n <? 10 then 48 + n else 87 + n.
(** htmlSafeSet: printable ASCII and DEL, without quote, backslash, <, > and & *)
Definition html_safe (c : N) : bool :=
  (32 <=? c) && (c <? 128) && negb ((c =? 34) || (c =? 92) || (c =? 60) || (c =? 62) || (c =? 38)).
(** a byte below 0x80 *)
Definition esc_ascii (c : N) : gostr :=
  if html_safe c then [c]
  else if (c =? 34) || (c =? 92) then [92; c]
  else if c =? 10 then ltext "\n"
  else if c =? 13 then ltext "\r"
  else if c =? 9 then ltext "\t"
  else ltext "\u00" ++ [hex_digit (c / 16); hex_digit (c mod 16)].

Definition within (lo hi c : N) : bool := (lo <=? c) && (c <=? hi).
(** unicode/utf8.DecodeRuneInString for a string whose first byte is not ASCII:
    the bytes of the first character and the rest, or None (RuneError, width 1). *)
Definition rune (s : gostr) : option (gostr * gostr) :=
  match s with
  | c0 :: c1 :: r1 =>
      if within 194 223 c0 then
        if within 128 191 c1 then Some ([c0; c1], r1) else None
      else match r1 with
      | c2 :: r2 =>
          if within 224 239 c0 then
            if within (if c0 =? 224 then 160 else 128) (if c0 =? 237 then 159 else 191) c1
               && within 128 191 c2
            then Some ([c0; c1; c2], r2) else None
          else match r2 with
          | c3 :: r3 =>
              if within 240 244 c0
                 && within (if c0 =? 240 then 144 else 128) (if c0 =? 244 then 143 else 191) c1
                 && within 128 191 c2 && within 128 191 c3
              then Some ([c0; c1; c2; c3], r3) else None
          | [] => None
          end
      | [] => None
      end
  | _ => None
  end.

(** The body of the loop of encodeState.string; one unit of fuel per character. *)
Fixpoint esc (fuel : nat) (s : gostr) : gostr :=
  match fuel, s with
  | S f, c :: s' =>
      if c <? 128 then esc_ascii c ++ esc f s'
      else match rune s with
           | None => ltext "\ufffd" ++ esc f s'
           | Some (ch, r) =>
               (if str_eqb ch [226; 128; 168] then ltext "\u2028"
                else if str_eqb ch [226; 128; 169] then ltext "\u2029"
                else ch) ++ esc f r
           end
  | _, _ => []
  end.
Definition json_str (s : gostr) : gostr := [34] ++ esc (List.length s) s ++ [34].

(** ** Numbers *)

(** strconv.AppendUint, AppendInt in base 10; the fuel (number of bits) bounds
    the number of digits. *)
Fixpoint show_digits (fuel : nat) (n : N) : gostr :=
  match fuel with
  | O => []
  | S f => if n <? 10 then [48 + n] else show_digits f (n / 10) ++ [48 + n mod 10]
  end.
Definition json_uint (n : N) : gostr := show_digits (S (N.to_nat (N.log2 n))) n.
Definition json_int (z : Z) : gostr :=
  if (z <? 0)%Z then [45] ++ json_uint (Z.to_N (- z)) else json_uint (Z.to_N z).
(** floatEncoder: UnsupportedValueError for NaN and the infinities *)
Definition json_float (ft : f64 -> gostr) (x : f64) : option gostr :=
  match x with
  | S754_nan | S754_infinity _ => None
  | S754_zero _ | S754_finite _ _ _ => Some (ft x)
  end.

(** ** Structs and slices *)

Fixpoint sep_by (l : list gostr) : gostr :=
  match l with
  | [] => []
  | [x] => x
  | x :: l' => x ++ [44] ++ sep_by l'
  end.
(** structEncoder *)
Definition json_struct (fields : list (string * gostr)) : gostr :=
  [123] ++ sep_by (map (fun kv => json_str (ltext (fst kv)) ++ [58] ++ snd kv) fields) ++ [125].
(** sliceEncoder, arrayEncoder; a slice the server never appended to is nil *)
Definition json_slice (l : list gostr) : gostr :=
  match l with [] => ltext "null" | _ => [91] ++ sep_by l ++ [93] end.

Fixpoint all_some {A} (l : list (option A)) : option (list A) :=
  match l with
  | [] => Some []
  | None :: _ => None
  | Some x :: l' => match all_some l' with Some r => Some (x :: r) | None => None end
  end.

Section Marshal.
Variable ft : f64 -> gostr.

(** packet.go:24-29 *)
Definition json_loc (s : loc_state) : option gostr :=
  match json_float ft (lsLat s), json_float ft (lsLng s) with
  | Some la, Some lo =>
      Some (json_struct [("lat", la); ("lng", lo); ("speed", json_uint (lsSpeed s));
                         ("navigation_dt", json_str (lsNavDt s))]%string)
  | _, _ => None
  end.
(** packet.go:31-38 *)
Definition json_liquid (s : liquid_sensor) : option gostr :=
  match json_float ft (lqL s) with
  | Some l =>
      Some (json_struct [("sensor_number", json_uint (lqNumber s)); ("module_number", json_uint (lqModule s));
                         ("error_flag", json_str (lqError s)); ("value_unit", json_str (lqUnit s));
                         ("value_mm", json_uint (lqMm s)); ("value_l", l)]%string)
  | None => None
  end.
(** packet.go:40-43 *)
Definition json_an (s : an_sensor) : gostr :=
  json_struct [("sensor_number", json_uint (anNumber s)); ("value", json_uint (anValue s))]%string.

(** packet.go:7-22; [rdt] is ReceivedDt, the wall clock at reception, which
    nav_record does not hold. *)
Definition to_bytes (rdt : gostr) (n : nav_record) : option gostr :=
  match all_some (map json_liquid (nrLiq n)), all_some (map json_loc (nrLocs n)) with
  | Some liq, Some locs =>
      Some (json_struct
        [("server_id", json_str (nrServerID n)); ("IMEI", json_str (nrIMEI n));
         ("client_id", json_uint (nrClientID n)); ("received_dt", json_str rdt);
         ("packet_id", json_uint (nrPacketID n)); ("navigation_unix_time", json_int (nrNavTs n));
         ("an_sensors", json_slice (map json_an (nrAn n))); ("liquid_sensors", json_slice liq);
         ("loc_states", json_slice locs); ("loc_states_count", json_uint (nrCount n))]%string)
  | _, _ => None
  end.
End Marshal.
