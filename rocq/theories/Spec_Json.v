(** * Spec_Json: reading JSON (RFC 8259, compact form) and what the document of a
    record must say.  Independent of the writer in Json.v. *)
From Coq Require Import Ascii String List ZArith Bool.
From Verif Require Import GoBase Float64 Storage.
Import ListNotations.
Open Scope N_scope.

Definition key (s : string) : gostr := map N_of_ascii (list_ascii_of_string s).

(** ** Unicode *)

(** a Unicode scalar value and its UTF-8 bytes (RFC 3629) *)
Definition scalar (cp : N) : Prop := cp < 55296 \/ (57344 <= cp /\ cp < 1114112).
Definition utf8 (cp : N) : gostr :=
  if cp <? 128 then [cp]
  else if cp <? 2048 then [192 + cp / 64; 128 + cp mod 64]
  else if cp <? 65536 then [224 + cp / 4096; 128 + cp / 64 mod 64; 128 + cp mod 64]
  else [240 + cp / 262144; 128 + cp / 4096 mod 64; 128 + cp / 64 mod 64; 128 + cp mod 64].
Definition valid_utf8 (s : gostr) : Prop := exists cps, Forall scalar cps /\ s = flat_map utf8 cps.

(** Reading arbitrary bytes as text: characters, and stray bytes ([None]) where
    no character starts. *)
Inductive chars : gostr -> list (option N) -> Prop :=
| chars_nil : chars [] []
| chars_char cp s l : scalar cp -> chars s l -> chars (utf8 cp ++ s) (Some cp :: l)
| chars_stray c s l : (forall cp r, scalar cp -> c :: s <> utf8 cp ++ r) ->
    chars s l -> chars (c :: s) (None :: l).
(** [t] is the text [s] with every stray byte replaced by U+FFFD. *)
Definition shown (s t : gostr) : Prop :=
  exists l, chars s l /\ t = flat_map (fun o => utf8 (match o with Some cp => cp | None => 65533 end)) l.

(** ** JSON values *)

Inductive json :=
| JNull
| JBool (x : bool)
| JInt (z : Z)               (* a number written without fraction or exponent *)
| JReal (t : gostr)          (* any other number, by its text *)
| JStr (s : gostr)           (* the text, in UTF-8 *)
| JArr (l : list json)
| JObj (l : list (gostr * json)).

(** strings: after the opening quote *)
Definition hex_value (c : N) : option N :=
  if (48 <=? c) && (c <=? 57) then Some (c - 48)
  else if (97 <=? c) && (c <=? 102) then Some (c - 87)
  else if (65 <=? c) && (c <=? 70) then Some (c - 55)
  else None.
Definition hex4 (a b c d : N) : option N :=
  match hex_value a, hex_value b, hex_value c, hex_value d with
  | Some a, Some b, Some c, Some d => Some (4096 * a + 256 * b + 16 * c + d)
  | _, _, _, _ => None
  end.
(** the character after a backslash, other than u *)
Definition escaped (c : N) : option N :=
  if (c =? 34) || (c =? 92) || (c =? 47) then Some c      (* quote, backslash, slash *)
  else if c =? 98 then Some 8                              (* b *)
  else if c =? 102 then Some 12                            (* f *)
  else if c =? 110 then Some 10                            (* n *)
  else if c =? 114 then Some 13                            (* r *)
  else if c =? 116 then Some 9                             (* t *)
  else None.
Definition prepend (p : gostr) (o : option (gostr * gostr)) : option (gostr * gostr) :=
  match o with Some (t, r) => Some (p ++ t, r) | None => None end.
(** Surrogate pairs (\ud83d\ude00) are not supported: the writer emits none. *)
Fixpoint read_str (s : gostr) : option (gostr * gostr) :=
  match s with
  | [] => None
  | c :: r =>
      if c =? 34 then Some ([], r)
      else if c =? 92 then
        match r with
        | [] => None
        | e :: r1 =>
            if e =? 117 then
              match r1 with
              | h1 :: h2 :: h3 :: h4 :: r2 =>
                  match hex4 h1 h2 h3 h4 with
                  | Some cp => if (cp <? 55296) || (57344 <=? cp) then prepend (utf8 cp) (read_str r2) else None
                  | None => None
                  end
              | _ => None
              end
            else match escaped e with Some x => prepend [x] (read_str r1) | None => None end
        end
      else if c <? 32 then None
      else prepend [c] (read_str r)
  end.

(** numbers *)
Definition digit (c : N) : bool := (48 <=? c) && (c <=? 57).
Definition value_of (s : gostr) : Z := fold_left (fun a c => a * 10 + (Z.of_N c - 48))%Z s 0%Z.
(** 0, or digits not starting with 0 *)
Definition plain_int (s : gostr) : bool :=
  match s with
  | [] => false
  | [c] => digit c
  | c :: s' => digit c && negb (c =? 48) && forallb digit s'
  end.
Fixpoint span (p : N -> bool) (s : gostr) : gostr * gostr :=
  match s with
  | [] => ([], [])
  | c :: s' => if p c then let '(a, b) := span p s' in (c :: a, b) else ([], s)
  end.
Definition digits1 (s : gostr) : bool := match s with [] => false | _ => forallb digit s end.
(** [-] int [. digits] [(e|E) [+|-] digits] *)
Definition exponent (s : gostr) : bool :=
  match s with
  | [] => true
  | c :: s' => ((c =? 101) || (c =? 69)) &&
      match s' with
      | d :: s'' => if (d =? 43) || (d =? 45) then digits1 s'' else digits1 s'
      | [] => false
      end
  end.
Definition fraction (s : gostr) : bool :=
  match s with
  | [] => true
  | c :: s' => if c =? 46 then let '(a, b) := span digit s' in digits1 a && exponent b else exponent s
  end.
Definition number (s : gostr) : bool :=
  let s := match s with c :: s' => if c =? 45 then s' else s | [] => [] end in
  let '(a, b) := span digit s in plain_int a && fraction b.
Definition number_char (c : N) : bool :=
  digit c || (c =? 43) || (c =? 45) || (c =? 46) || (c =? 101) || (c =? 69).
Definition read_num (s : gostr) : option (json * gostr) :=
  let '(t, r) := span number_char s in
  if plain_int t then Some (JInt (value_of t), r)
  else match t with
       | c :: t' =>
           if (c =? 45) && plain_int t' && negb (str_eqb t' [48]) then Some (JInt (- value_of t'), r)
           else if number t then Some (JReal t, r) else None
       | [] => None
       end.

(** values; one unit of fuel per nesting level and element *)
Fixpoint read_value (fuel : nat) (s : gostr) : option (json * gostr) :=
  match fuel, s with
  | S f, c :: r =>
      if c =? 34 then match read_str r with Some (t, r') => Some (JStr t, r') | None => None end
      else if c =? 123 then
        match r with
        | d :: r' => if d =? 125 then Some (JObj [], r')
                     else match read_members f r with Some (m, r'') => Some (JObj m, r'') | None => None end
        | [] => None
        end
      else if c =? 91 then
        match r with
        | d :: r' => if d =? 93 then Some (JArr [], r')
                     else match read_items f r with Some (m, r'') => Some (JArr m, r'') | None => None end
        | [] => None
        end
      else if c =? 110 then
        match r with
        | u :: l1 :: l2 :: r' => if (u =? 117) && (l1 =? 108) && (l2 =? 108) then Some (JNull, r') else None
        | _ => None
        end
      else if c =? 116 then
        match r with
        | a :: u :: e :: r' => if (a =? 114) && (u =? 117) && (e =? 101) then Some (JBool true, r') else None
        | _ => None
        end
      else if c =? 102 then
        match r with
        | a :: l :: d :: e :: r' =>
            if (a =? 97) && (l =? 108) && (d =? 115) && (e =? 101) then Some (JBool false, r') else None
        | _ => None
        end
      else read_num s
  | _, _ => None
  end
(** value (, value)* ] *)
with read_items (fuel : nat) (s : gostr) : option (list json * gostr) :=
  match fuel with
  | O => None
  | S f =>
      match read_value f s with
      | Some (v, c :: r) =>
          if c =? 93 then Some ([v], r)
          else if c =? 44 then match read_items f r with Some (l, r') => Some (v :: l, r') | None => None end
          else None
      | _ => None
      end
  end
(** "key":value (, "key":value)* } *)
with read_members (fuel : nat) (s : gostr) : option (list (gostr * json) * gostr) :=
  match fuel, s with
  | S f, q :: s' =>
      if q =? 34 then
        match read_str s' with
        | Some (k, colon :: s'') =>
            if colon =? 58 then
              match read_value f s'' with
              | Some (v, c :: r) =>
                  if c =? 125 then Some ([(k, v)], r)
                  else if c =? 44 then match read_members f r with Some (l, r') => Some ((k, v) :: l, r') | None => None end
                  else None
              | _ => None
              end
            else None
        | _ => None
        end
      else None
  | _, _ => None
  end.
(** the whole text is one value *)
Definition read_json (s : gostr) : option json :=
  match read_value (S (List.length s)) s with Some (v, []) => Some v | _ => None end.

(** ** What the document of a record says *)

Definition jtext (s : gostr) (v : json) : Prop := exists t, v = JStr t /\ shown s t.
Definition jnat (n : N) (v : json) : Prop := v = JInt (Z.of_N n).
(** a list: null when empty (a nil slice), otherwise an array *)
Definition jlist {A} (p : A -> json -> Prop) (l : list A) (v : json) : Prop :=
  match l with [] => v = JNull | _ => exists vs, v = JArr vs /\ Forall2 p l vs end.
(** exactly these keys in this order, each with its value *)
Inductive jobj : list (string * (json -> Prop)) -> list (gostr * json) -> Prop :=
| jobj_nil : jobj [] []
| jobj_cons k (p : json -> Prop) v fs ms : p v -> jobj fs ms -> jobj ((k, p) :: fs) ((key k, v) :: ms).
Definition jstruct (fs : list (string * (json -> Prop))) (v : json) : Prop := exists ms, v = JObj ms /\ jobj fs ms.

Section Describe.
(** what a reader gets from the text of a finite float64 *)
Variable jf : f64 -> json.
Definition jfloat (x : f64) (v : json) : Prop := v = jf x.
Definition loc_doc (s : loc_state) : json -> Prop :=
  jstruct [("lat", jfloat (lsLat s)); ("lng", jfloat (lsLng s)); ("speed", jnat (lsSpeed s));
           ("navigation_dt", jtext (lsNavDt s))]%string.
Definition liquid_doc (s : liquid_sensor) : json -> Prop :=
  jstruct [("sensor_number", jnat (lqNumber s)); ("module_number", jnat (lqModule s));
           ("error_flag", jtext (lqError s)); ("value_unit", jtext (lqUnit s));
           ("value_mm", jnat (lqMm s)); ("value_l", jfloat (lqL s))]%string.
Definition an_doc (s : an_sensor) : json -> Prop :=
  jstruct [("sensor_number", jnat (anNumber s)); ("value", jnat (anValue s))]%string.
(** packet.go's tags; [rdt] is the reception time *)
Definition record_doc (rdt : gostr) (n : nav_record) : json -> Prop :=
  jstruct [("server_id", jtext (nrServerID n)); ("IMEI", jtext (nrIMEI n));
           ("client_id", jnat (nrClientID n)); ("received_dt", jtext rdt);
           ("packet_id", jnat (nrPacketID n)); ("navigation_unix_time", fun v => v = JInt (nrNavTs n));
           ("an_sensors", jlist an_doc (nrAn n)); ("liquid_sensors", jlist liquid_doc (nrLiq n));
           ("loc_states", jlist loc_doc (nrLocs n)); ("loc_states_count", jnat (nrCount n))]%string.
End Describe.
