(** * Insert: which table the statement of postgresql/connector.go:59 writes to.
    No proofs here.

    PostgreSQL reads the statement (src/backend/parser: scan.l, gram.y, and
    scansup.c downcase_truncate_identifier).  Only the shape the connector
    builds is modelled, INSERT INTO table (point) VALUES ($1), with a table name
    of one to three parts; a table setting that makes anything else of it (with
    comments, other columns, several statements, U&"...") is None here. *)
From Coq Require Import List.
From Verif Require Import GoBase Storage Connectors.

Section Insert.
(** the words that cannot be a table name without quotes; they depend on the
    server's release *)
Variable keyword : gostr -> bool.

(** [ \t\n\r\f] *)
Definition sql_blank (c : N) : bool := (c =? 32) || (c =? 9) || (c =? 10) || (c =? 13) || (c =? 12).
Fixpoint sql_skip (s : gostr) : gostr :=
  match s with c :: s' => if sql_blank c then sql_skip s' else s | [] => [] end.
(** ident_start [A-Za-z\200-\377_], ident_cont [A-Za-z\200-\377_0-9\$] *)
Definition sql_start (c : N) : bool :=
  ((97 <=? c) && (c <=? 122)) || ((65 <=? c) && (c <=? 90)) || (c =? 95) || (128 <=? c).
Definition sql_cont (c : N) : bool := sql_start c || ((48 <=? c) && (c <=? 57)) || (c =? 36).
(** in a database with a multibyte encoding only ASCII letters are folded *)
Definition sql_fold (c : N) : N := if (65 <=? c) && (c <=? 90) then c + 32 else c.
(** NAMEDATALEN - 1.  Simplified: a multibyte character at the limit is cut,
    where the server drops it. *)
Definition name_cut (s : gostr) : gostr := firstn 63 s.

Fixpoint sql_span (s : gostr) : gostr * gostr :=
  match s with
  | c :: s' => if sql_cont c then let '(a, b) := sql_span s' in (c :: a, b) else ([], s)
  | [] => ([], [])
  end.
(** what follows the opening quote; two quotes stand for one *)
Fixpoint sql_quoted (s : gostr) : option (gostr * gostr) :=
  match s with
  | [] => None
  | c :: s' =>
      if c =? 34 then
        match s' with
        | d :: s'' =>
            if d =? 34 then match sql_quoted s'' with Some (n, r) => Some (34 :: n, r) | None => None end
            else Some ([], s')
        | [] => Some ([], [])
        end
      else match sql_quoted s' with Some (n, r) => Some (c :: n, r) | None => None end
  end.
(** one name; a word with a meaning is none, except after a dot *)
Definition sql_name (first : bool) (s : gostr) : option (gostr * gostr) :=
  match s with
  | [] => None
  | c :: s' =>
      if c =? 34 then
        match sql_quoted s' with
        | Some (x :: n, r) => Some (name_cut (x :: n), r)
        | _ => None                                       (* zero-length or unterminated *)
        end
      else if sql_start c then
        let '(a, r) := sql_span s in
        let n := name_cut (map sql_fold a) in
        if first && keyword n then None else Some (n, r)
      else None
  end.
(** names with dots between; every turn consumes a character *)
Fixpoint sql_names (fuel : nat) (first : bool) (s : gostr) : option (list gostr * gostr) :=
  match fuel with
  | O => None
  | S fuel' =>
      match sql_name first (sql_skip s) with
      | None => None
      | Some (n, r) =>
          match sql_skip r with
          | c :: r' =>
              if c =? 46 then
                match sql_names fuel' false r' with Some (l, r2) => Some (n :: l, r2) | None => None end
              else Some ([n], c :: r')
          | [] => Some ([n], [])
          end
      end
  end.
Fixpoint strip (p s : gostr) : option gostr :=
  match p, s with
  | [], _ => Some s
  | c :: p', d :: s' => if c =? d then strip p' s' else None
  | _, [] => None
  end.
Definition insert_into : gostr := [73;78;83;69;82;84;32;73;78;84;79;32].
(** (point) VALUES ($1) *)
Definition the_point : gostr := [40;112;111;105;110;116;41;32;86;65;76;85;69;83;32;40;36;49;41].
Definition insert_target (q : gostr) : option (list gostr) :=
  match strip insert_into q with
  | None => None
  | Some s =>
      match sql_names (length s) true s with
      | Some (l, r) => if str_eqb r the_point && (length l <=? 3)%nat then Some l else None
      | None => None
      end
  end.
End Insert.
