(** * Yaml: config.New — what yaml.Unmarshal (gopkg.in/yaml.v2 v2.4.0, go.mod:21)
    puts into config.Settings.  No proofs here.

    The input is the parsed document: the text of the file and the YAML grammar
    are not modelled, nor are anchors, merge keys ("<<"), explicit tags and keys
    that are not scalars. *)
From Verif Require Import GoBase Storage Connectors Config Main.

(** A node of the document.  A plain scalar is resolved by the library to null,
    an integer, a float, or something else (a boolean, a date); [t] is the text
    as written.  A quoted scalar, or one that resolves to nothing else, is a
    string.  A float carries its value rounded towards zero; floats outside
    int64 are not modelled (the library's answer for them depends on the
    machine), here they are refused. *)
Inductive ynode :=
| YNull
| YStr (s : gostr)
| YInt (z : Z) (t : gostr)
| YFloat (z : Z) (t : gostr)
| YOther (t : gostr)
| YMap (l : list (gostr * ynode))
| YSeq (l : list ynode).

(** decoding into a Go string (config.go:16, 17, 19 and the values of a
    section): any scalar, as written; null gives "" *)
Definition y_string (n : ynode) : option gostr :=
  match n with
  | YNull => Some []
  | YStr s => Some s
  | YInt _ t | YFloat _ t | YOther t => Some t
  | YMap _ | YSeq _ => None
  end.

(** decoding into a Go int (config.go:18), 64 bits; null gives 0 *)
Definition y_int (n : ynode) : option Z :=
  match n with
  | YNull => Some 0%Z
  | YInt z _ | YFloat z _ => if ((- 2 ^ 63 <=? z) && (z <? 2 ^ 63))%Z then Some z else None
  | _ => None
  end.

(** m[k] = v; a Go map as a list without repeated keys *)
Fixpoint map_set {A} (m : list (gostr * A)) (k : gostr) (v : A) : list (gostr * A) :=
  match m with
  | [] => [(k, v)]
  | (k', v') :: m' => if str_eqb k k' then (k, v) :: m' else (k', v') :: map_set m' k v
  end.

(** decoding the entries of a mapping into a Go map: each value is decoded
    afresh and then assigned *)
Fixpoint y_entries {A} (elem : ynode -> option A) (m : list (gostr * A)) (l : list (gostr * ynode))
  : option (list (gostr * A)) :=
  match l with
  | [] => Some m
  | (k, n) :: l' =>
      match elem n with
      | None => None
      | Some v => y_entries elem (map_set m k v) l'
      end
  end.

(** decoding into map[string]string (config.go:20, one section): null gives a
    nil map *)
Definition y_section (n : ynode) : option section :=
  match n with
  | YNull => Some None
  | YMap l => match y_entries y_string [] l with Some m => Some (Some m) | None => None end
  | _ => None
  end.

(** decoding into map[string]map[string]string (config.go:20): null resets the
    map, a mapping adds to it *)
Definition y_store (m : list (gostr * section)) (n : ynode) : option (list (gostr * section)) :=
  match n with
  | YNull => Some []
  | YMap l => y_entries y_section m l
  | _ => None
  end.

Definition key_host : gostr := [104;111;115;116].
Definition key_port : gostr := [112;111;114;116].
Definition key_conn_ttl : gostr := [99;111;110;110;95;116;116;108].
Definition key_log_level : gostr := [108;111;103;95;108;101;118;101;108].
Definition key_storage : gostr := [115;116;111;114;97;103;101].

(** config.go:15-21: one key of the top-level mapping *)
Definition y_field (c : config) (k : gostr) (n : ynode) : option config :=
  let s := cg_settings c in
  if str_eqb k key_host then
    match y_string n with None => None
    | Some v => Some (mkConfig (mkSettings v (cfPort s) (cfConnTTL s) (cfLogLevel s)) (cg_store c)) end
  else if str_eqb k key_port then
    match y_string n with None => None
    | Some v => Some (mkConfig (mkSettings (cfHost s) v (cfConnTTL s) (cfLogLevel s)) (cg_store c)) end
  else if str_eqb k key_conn_ttl then
    match y_int n with None => None
    | Some v => Some (mkConfig (mkSettings (cfHost s) (cfPort s) v (cfLogLevel s)) (cg_store c)) end
  else if str_eqb k key_log_level then
    match y_string n with None => None
    | Some v => Some (mkConfig (mkSettings (cfHost s) (cfPort s) (cfConnTTL s) v) (cg_store c)) end
  else if str_eqb k key_storage then
    match y_store (cg_store c) n with None => None
    | Some m => Some (mkConfig s m) end
  else Some c.                                        (* not strict: ignored *)

Fixpoint y_fields (c : config) (l : list (gostr * ynode)) : option config :=
  match l with
  | [] => Some c
  | (k, n) :: l' => match y_field c k n with None => None | Some c' => y_fields c' l' end
  end.

Definition config0 : config := mkConfig (mkSettings [] [] 0%Z []) [].

(** config.go:52-60: [None] is an error.  [doc] is the file: [None] if it cannot
    be read or is not YAML.  After a value of the wrong type the library decodes
    the rest and then returns the error; the settings returned with it are
    dropped by main.go:20-23. *)
Definition config_new (doc : option ynode) : option config :=
  match doc with
  | None => None
  | Some YNull => Some config0
  | Some (YMap l) => y_fields config0 l
  | Some _ => None
  end.
