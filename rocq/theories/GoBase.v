(** * GoBase: the fragment of Go (language and standard library) used by the
    modelled code.  No proofs here.

    A byte or unsigned integer is an [N]; [bytes] is a Go []byte or string. *)
From Coq Require Export List NArith ZArith Bool Arith.
Export ListNotations.
Open Scope N_scope.

Definition bytes := list N.
(** Go strings are byte sequences. *)
Definition gostr := bytes.

(** The outcome of a Go function returning (T, error): a value, a non-nil
    error, or a run-time panic.  [Fuel] is not a Go outcome: it marks the
    exhaustion of the model's recursion bound, and is proved unreachable. *)
Inductive res (A : Type) : Type :=
| Ok (a : A)
| Err
| Panic
| Fuel.
Arguments Ok {A} a.
Arguments Err {A}.
Arguments Panic {A}.
Arguments Fuel {A}.

Definition bind {A B} (x : res A) (f : A -> res B) : res B :=
  match x with
  | Ok a => f a
  | Err => Err
  | Panic => Panic
  | Fuel => Fuel
  end.

Notation "x <- e ;; k" := (bind e (fun x => k))
  (at level 61, e at next level, right associativity).
Notation "' pat <- e ;; k" := (bind e (fun x => match x with pat => k end))
  (at level 61, pat pattern, e at next level, right associativity).

(** Well-formedness of bytes: what the Go type system guarantees. *)
Definition byte_ok (b : N) : bool := b <? 256.
Definition bytes_ok (b : bytes) : bool := forallb byte_ok b.

(** Conversions uint8(x), uint16(x), uint32(x): wrap-around. *)
Definition u8 (x : N) : N := x mod 256.
Definition u16 (x : N) : N := x mod 65536.
Definition u32 (x : N) : N := x mod 4294967296.

(** len(b) as a number. *)
Definition blen (b : bytes) : N := N.of_nat (length b).

(** encoding/binary.LittleEndian.UintK / PutUintK. *)
Fixpoint le_dec (b : bytes) : N :=
  match b with
  | [] => 0
  | x :: r => x + 256 * le_dec r
  end.
Fixpoint le_enc (k : nat) (v : N) : bytes :=
  match k with
  | O => []
  | S k' => v mod 256 :: le_enc k' (v / 256)
  end.
(** encoding/binary.BigEndian.PutUint32 *)
Definition be_enc (k : nat) (v : N) : bytes := rev (le_enc k v).

(** make([]byte, n) *)
Definition zeros (n : nat) : bytes := repeat 0 n.

(** ** bytes.Reader / bytes.Buffer: the state is the unread part. *)

(** Reader.ReadByte, Buffer.ReadByte: error iff nothing is left. *)
Definition read_byte (r : bytes) : res (N * bytes) :=
  match r with
  | [] => Err
  | b :: r' => Ok (b, r')
  end.

(** The effect of copy(buf, r): the first min(len buf, len r) bytes of [buf]
    are replaced, the tail of [buf] keeps its old content. *)
Definition copy_into (buf r : bytes) : bytes :=
  firstn (length buf) r ++ skipn (length r) buf.

(** bytes.Reader.Read(buf): io.EOF whenever nothing is left (even when buf
    is empty); otherwise a possibly partial read with a nil error. *)
Definition reader_read (buf r : bytes) : res (bytes * bytes) :=
  match r with
  | [] => Err
  | _ :: _ => Ok (copy_into buf r, skipn (length buf) r)
  end.

(** bytes.Buffer.Read(buf): as above, but an empty buf on an empty buffer
    gives a nil error. *)
Definition buffer_read (buf r : bytes) : res (bytes * bytes) :=
  match r, buf with
  | [], [] => Ok ([], [])
  | [], _ :: _ => Err
  | _ :: _, _ => Ok (copy_into buf r, skipn (length buf) r)
  end.

(** bytes.Buffer.Next(n): at most n bytes, silently fewer. *)
Definition buffer_next (n : N) (r : bytes) : bytes * bytes :=
  (firstn (N.to_nat n) r, skipn (N.to_nat n) r).

(** bytes.Buffer.ReadString(delim) followed by strings.TrimSuffix(_, delim):
    error when no delimiter is found. *)
Fixpoint read_string (delim : N) (r : bytes) : res (gostr * bytes) :=
  match r with
  | [] => Err
  | c :: r' =>
      if c =? delim then Ok ([], r')
      else '(s, r'') <- read_string delim r' ;; Ok (c :: s, r'')
  end.

(** ** Strings of binary digits *)

Definition ch0 : N := 48.   (* '0' *)
Definition ch1 : N := 49.   (* '1' *)
Definition s0 : gostr := [ch0].
Definition s1 : gostr := [ch1].

Fixpoint str_eqb (a b : gostr) : bool :=
  match a, b with
  | [], [] => true
  | x :: a', y :: b' => (x =? y) && str_eqb a' b'
  | _, _ => false
  end.
(** s == "1" *)
Definition is1 (s : gostr) : bool := str_eqb s s1.

(** fmt.Sprintf("%0wb", v): at least w binary digits, most significant first. *)
Definition fmt_b (w : nat) (v : N) : gostr :=
  map (fun i => if N.testbit_nat v i then ch1 else ch0)
      (rev (seq 0 (Nat.max w (N.size_nat v)))).

(** s[i:j] for a string. *)
Definition substr (i j : nat) (s : gostr) : gostr := firstn (j - i) (skipn i s).

(** strconv.ParseUint(s, 2, bits) with 2^bits-1 = [max]: the value returned and
    whether the error is nil.  Syntax errors return 0, range errors [max]; the
    scan stops at the first problem. *)
Fixpoint parse_bin_from (max acc : N) (s : gostr) : N * bool :=
  match s with
  | [] => (acc, true)
  | c :: s' =>
      if (c =? ch0) || (c =? ch1) then
        let n := 2 * acc + (c - ch0) in
        if max <? n then (max, false) else parse_bin_from max n s'
      else (0, false)
  end.
Definition parse_uint (max : N) (s : gostr) : N * bool :=
  match s with
  | [] => (0, false)
  | _ => parse_bin_from max 0 s
  end.
Definition parse8 (s : gostr) : res N :=
  let '(v, ok) := parse_uint 255 s in if ok then Ok v else Err.
Definition parse16 (s : gostr) : res N :=
  let '(v, ok) := parse_uint 65535 s in if ok then Ok v else Err.

(** ** Slices with capacity *)
Record slice := mkSlice { sl_data : bytes; sl_spare : bytes }.
Definition sl_cap (s : slice) : N := blen (sl_data s) + blen (sl_spare s).
(** s[lo:hi]: panics unless lo <= hi <= cap(s); may reach into the spare part. *)
Definition reslice (s : slice) (lo hi : N) : res bytes :=
  if (lo <=? hi) && (hi <=? sl_cap s) then
    Ok (firstn (N.to_nat (hi - lo)) (skipn (N.to_nat lo) (sl_data s ++ sl_spare s)))
  else Panic.

(** len(b) as uint16, 0 when Encode failed: the body of every Length method. *)
Definition length_of (r : res bytes) : res N :=
  match r with
  | Ok b => Ok (u16 (blen b))
  | Err => Ok 0
  | Panic => Panic
  | Fuel => Fuel
  end.

(** Eight numbered fields X1 .. X8 of a struct. *)
Record oct (A : Type) := mkOct
  { o1 : A; o2 : A; o3 : A; o4 : A; o5 : A; o6 : A; o7 : A; o8 : A }.
Arguments mkOct {A}.
Arguments o1 {A}. Arguments o2 {A}. Arguments o3 {A}. Arguments o4 {A}.
Arguments o5 {A}. Arguments o6 {A}. Arguments o7 {A}. Arguments o8 {A}.
