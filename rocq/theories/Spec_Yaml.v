(** * Spec_Yaml: what a configuration file says, read off the document alone. *)
From Coq Require Import String.
From Verif Require Import GoBase Storage Connectors Config Main Yaml Spec_Storage.

(** the value given last to a key *)
Fixpoint given {A} (l : list (gostr * A)) (k : gostr) : option A :=
  match l with
  | [] => None
  | (k', v) :: l' =>
      match given l' k with
      | Some v' => Some v'
      | None => if list_eq_dec N.eq_dec k' k then Some v else None
      end
  end.

(** [n] is a scalar whose text is [s] (nothing at all: the empty text) *)
Inductive says : ynode -> gostr -> Prop :=
| says_null : says YNull []
| says_str s : says (YStr s) s
| says_int z s : says (YInt z s) s
| says_float z s : says (YFloat z s) s
| says_other s : says (YOther s) s.

(** [n] is a number, or nothing at all (zero), of 64 bits *)
Inductive counts : ynode -> Z -> Prop :=
| counts_null : counts YNull 0%Z
| counts_int z s : (- 2 ^ 63 <= z < 2 ^ 63)%Z -> counts (YInt z s) z
| counts_float z s : (- 2 ^ 63 <= z < 2 ^ 63)%Z -> counts (YFloat z s) z.

(** two optional values agree *)
Definition agree {A B} (R : A -> B -> Prop) (a : option A) (b : option B) : Prop :=
  match a, b with
  | Some x, Some y => R x y
  | None, None => True
  | _, _ => False
  end.

(** the map [m] holds what the entries [l] give: for each key the last value *)
Definition holds {A} (R : ynode -> A -> Prop) (l : list (gostr * ynode)) (m : list (gostr * A)) : Prop :=
  NoDup (map fst m) /\ forall k, agree R (given l k) (given m k).

(** [n] is a storage section with the parameters [s] *)
Inductive section_says : ynode -> section -> Prop :=
| section_null : section_says YNull None
| section_map l m : holds says l m -> Forall (fun e => exists s, says (snd e) s) l -> section_says (YMap l) (Some m).

Definition scalar (n : ynode) : Prop := exists s, says n s.
Definition number (n : ynode) : Prop := exists z, counts n z.
Definition a_section (n : ynode) : Prop :=
  n = YNull \/ exists l, n = YMap l /\ Forall (fun e => scalar (snd e)) l.
Definition sections (n : ynode) : Prop :=
  n = YNull \/ exists l, n = YMap l /\ Forall (fun e => a_section (snd e)) l.

(** the documented parameters (README.md:88-93) and what may be written for each *)
Inductive parameter : gostr -> (ynode -> Prop) -> Prop :=
| par_host : parameter (text "host") scalar
| par_port : parameter (text "port") scalar
| par_conn_ttl : parameter (text "conn_ttl") number
| par_log_level : parameter (text "log_level") scalar
| par_storage : parameter (text "storage") sections.

(** every parameter among the entries has a value of its kind *)
Definition well_typed (l : list (gostr * ynode)) : Prop :=
  forall k n kind, In (k, n) l -> parameter k kind -> kind n.

(** The sections configured by the top-level entries [l]: those of every
    "storage" mapping after the last empty "storage". *)
Inductive configured : list (gostr * ynode) -> list (gostr * ynode) -> Prop :=
| conf_none : configured [] []
| conf_other l e k n : configured l e -> k <> text "storage" -> configured (l ++ [(k, n)]) e
| conf_null l e : configured l e -> configured (l ++ [(text "storage", YNull)]) []
| conf_map l e s : configured l e -> configured (l ++ [(text "storage", YMap s)]) (e ++ s).

(** the parameter [k] says [s]; "" if it is absent *)
Definition text_of (l : list (gostr * ynode)) (k : string) (s : gostr) : Prop :=
  match given l (text k) with Some n => says n s | None => s = [] end.
Definition number_of (l : list (gostr * ynode)) (k : string) (z : Z) : Prop :=
  match given l (text k) with Some n => counts n z | None => z = 0%Z end.

(** ** Writing a configuration *)
Definition write_section (s : section) : ynode :=
  match s with
  | None => YNull
  | Some m => YMap (map (fun e => (fst e, YStr (snd e))) m)
  end.
(** a file that states [c]: every text in quotes, conn_ttl as an integer with
    the numeral [t] *)
Definition written (t : gostr) (c : config) : ynode :=
  YMap [(text "host", YStr (cfHost (cg_settings c))); (text "port", YStr (cfPort (cg_settings c)));
        (text "conn_ttl", YInt (cfConnTTL (cg_settings c)) t); (text "log_level", YStr (cfLogLevel (cg_settings c)));
        (text "storage", YMap (map (fun e => (fst e, write_section (snd e))) (cg_store c)))].
(** a value of type config.Settings: no key twice in a map, an int of 64 bits *)
Definition config_value (c : config) : Prop :=
  (- 2 ^ 63 <= cfConnTTL (cg_settings c) < 2 ^ 63)%Z /\ NoDup (map fst (cg_store c)) /\
  Forall (fun e => forall m, snd e = Some m -> NoDup (map fst m)) (cg_store c).
