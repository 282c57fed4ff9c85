(** * Dsn: what the PostgreSQL driver makes of the connection string that
    postgresql/connector.go builds.  No proofs here.

    github.com/lib/pq v1.1.1 (go.mod:8), conn.go parseOpts: the documented
    keyword=value syntax.  The driver works on runes; the model on bytes, so it
    is faithful for ASCII texts only (other characters may be white space). *)
From Verif Require Import GoBase.

(** unicode.IsSpace below 128: \t \n \v \f \r and space *)
Definition pq_space (c : N) : bool := ((9 <=? c) && (c <=? 13)) || (c =? 32).

(** scanner.SkipSpaces *)
Fixpoint pq_skip (s : gostr) : gostr :=
  match s with
  | c :: s' => if pq_space c then pq_skip s' else s
  | [] => []
  end.

(** the keyword: up to white space or '=' *)
Fixpoint pq_key (s : gostr) : gostr * gostr :=
  match s with
  | [] => ([], [])
  | c :: s' => if pq_space c || (c =? 61) then ([], s) else let '(k, r) := pq_key s' in (c :: k, r)
  end.

Definition on_fst {A} (c : A) (x : option (list A * list A)) : option (list A * list A) :=
  match x with Some (v, r) => Some (c :: v, r) | None => None end.

(** an unquoted value: up to white space, which is consumed; a backslash takes
    the next character literally *)
Fixpoint pq_plain (s : gostr) : option (gostr * gostr) :=
  match s with
  | [] => Some ([], [])
  | c :: s' =>
      if pq_space c then Some ([], s')
      else if c =? 92 then
        match s' with
        | [] => None                          (* missing character after backslash *)
        | d :: s'' => on_fst d (pq_plain s'')
        end
      else on_fst c (pq_plain s')
  end.

(** the inside of a quoted value, with the closing quote *)
Fixpoint pq_quoted (s : gostr) : option (gostr * gostr) :=
  match s with
  | [] => None                                (* unterminated *)
  | c :: s' =>
      if c =? 39 then Some ([], s')
      else if c =? 92 then
        match s' with
        | [] => None
        | d :: s'' => on_fst d (pq_quoted s'')
        end
      else on_fst c (pq_quoted s')
  end.

(** parseOpts: the assignments in order; every turn consumes the '=', so the
    length of the text is enough fuel *)
Fixpoint pq_loop (fuel : nat) (s : gostr) : option (list (gostr * gostr)) :=
  match pq_skip s with
  | [] => Some []
  | s1 =>
      match fuel with
      | O => None
      | S fuel' =>
          let '(k, s2) := pq_key s1 in
          match pq_skip s2 with
          | [] => None                        (* missing "=" *)
          | e :: s3 =>
              if e =? 61 then
                match pq_skip s3 with
                | [] => Some [(k, [])]
                | c :: s4 =>
                    match (if c =? 39 then pq_quoted s4 else pq_plain (c :: s4)) with
                    | None => None
                    | Some (v, s5) =>
                        match pq_loop fuel' s5 with
                        | Some o => Some ((k, v) :: o)
                        | None => None
                        end
                    end
                end
              else None
          end
      end
  end.
Definition pq_read (s : gostr) : option (list (gostr * gostr)) := pq_loop (length s) s.
