(** * Specification: the Gregorian calendar and RFC 3339 text, independent of the
    arithmetic of the model.  A date is advanced one day at a time. *)
From Coq Require Import Ascii String List ZArith Lia.
From Verif Require Import GoBase.
Import ListNotations.
Open Scope Z_scope.

(** A date: year, month 1..12, day of the month 1... *)
Definition date := (Z * Z * Z)%type.

(** Divisible by 4, but a century only if divisible by 400. *)
Definition leap (y : Z) : bool :=
  (y mod 4 =? 0) && (negb (y mod 100 =? 0) || (y mod 400 =? 0)).
Definition month_days (y m : Z) : Z :=
  if m =? 2 then (if leap y then 29 else 28)
  else if (m =? 4) || (m =? 6) || (m =? 9) || (m =? 11) then 30 else 31.
Definition next_day (x : date) : date :=
  let '(y, m, d) := x in
  if d <? month_days y m then (y, m, d + 1)
  else if m <? 12 then (y, m + 1, 1) else (y + 1, 1, 1).
Definition real_date (x : date) : Prop :=
  let '(y, m, d) := x in 1 <= m <= 12 /\ 1 <= d <= month_days y m.

(** The date [n] days after 2010-01-01 and after 1970-01-01. *)
Definition days_after_2010 (n : N) : date := N.iter n next_day (2010, 1, 1).
Definition days_after_1970 (n : N) : date := N.iter n next_day (1970, 1, 1).

Definition lit (s : string) : gostr := map N_of_ascii (list_ascii_of_string s).

(** [s] is the decimal notation of [v] with exactly [w] digits. *)
Definition decimal (w : nat) (s : gostr) (v : Z) : Prop :=
  List.length s = w /\ Forall (fun c => (48 <= c <= 57)%N) s /\
  fold_left (fun a c => a * 10 + (Z.of_N c - 48)) s 0 = v.

(** [s] is YYYY-MM-DDThh:mm:ssZ for that date and time of day. *)
Definition reads (s : gostr) (x : date) (h mi sec : Z) : Prop :=
  let '(y, m, d) := x in
  exists a b c e f g,
    s = (a ++ lit "-" ++ b ++ lit "-" ++ c ++ lit "T"
         ++ e ++ lit ":" ++ f ++ lit ":" ++ g ++ lit "Z")%list /\
    decimal 4 a y /\ decimal 2 b m /\ decimal 2 c d /\
    decimal 2 e h /\ decimal 2 f mi /\ decimal 2 g sec.

(** [s] is the text of the instant [v] seconds after 2010-01-01T00:00:00Z: the
    date is v / 86400 days later, the time of day the remaining seconds. *)
Definition instant_text (s : gostr) (v : N) : Prop :=
  exists h mi sec,
    reads s (days_after_2010 (v / 86400)) h mi sec /\
    0 <= h < 24 /\ 0 <= mi < 60 /\ 0 <= sec < 60 /\
    h * 3600 + mi * 60 + sec = Z.of_N (v mod 86400).

(** Byte-wise (lexicographic) order of texts: how databases sort them. *)
Fixpoint text_lt (a b : gostr) : bool :=
  match a, b with
  | [], [] => false
  | [], _ :: _ => true
  | _ :: _, [] => false
  | x :: a', y :: b' => if (x <? y)%N then true else if (x =? y)%N then text_lt a' b' else false
  end.

(** [f] is the decimal fraction of [n] nanoseconds: nothing for 0, otherwise a
    point and as many digits as are needed. *)
Definition fraction_of_second (f : gostr) (n : Z) : Prop :=
  (n = 0 /\ f = []%list) \/
  exists d k, f = (lit "." ++ d)%list /\ decimal (List.length d) d k /\ (1 <= List.length d <= 9)%nat /\
    k * 10 ^ (9 - Z.of_nat (List.length d)) = n /\ (forall l, d <> (l ++ lit "0")%list).
(** The instant [v] seconds and [n] nanoseconds after 2010-01-01T00:00:00Z. *)
Definition precise_text (s : gostr) (v : N) (n : Z) : Prop :=
  exists a f, s = (a ++ f ++ lit "Z")%list /\ instant_text (a ++ lit "Z")%list v /\ fraction_of_second f n.
