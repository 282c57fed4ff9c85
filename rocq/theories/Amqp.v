(** * Amqp: what the RabbitMQ client makes of the URL that
    rabbitmq/connector.go:36 builds.  No proofs here.

    github.com/streadway/amqp v0.0.0-20190404075320 (go.mod:13), uri.go ParseURI,
    on top of the standard library's net/url Parse (Go 1.14 and later).  Not
    modelled: IPv6 zones ("%25" between brackets), schemes other than amqp, and
    the query parameters, which the client ignores. *)
From Verif Require Import GoBase Storage Connectors.

Record amqp_uri := mkUri
  { am_user : gostr; am_password : gostr; am_host : gostr; am_port : Z; am_vhost : gostr }.

(** s up to the first (last) byte satisfying p, and what follows it *)
Fixpoint cut_first (p : N -> bool) (s : gostr) : gostr * option gostr :=
  match s with
  | [] => ([], None)
  | c :: s' => if p c then ([], Some s') else let '(a, b) := cut_first p s' in (c :: a, b)
  end.
Fixpoint cut_last (p : N -> bool) (s : gostr) : option (gostr * gostr) :=
  match s with
  | [] => None
  | c :: s' =>
      match cut_last p s' with
      | Some (a, b) => Some (c :: a, b)
      | None => if p c then Some ([], s') else None
      end
  end.

Definition url_alnum (c : N) : bool :=
  ((97 <=? c) && (c <=? 122)) || ((65 <=? c) && (c <=? 90)) || ((48 <=? c) && (c <=? 57)).
(** net/url validUserinfo: letters, digits, - . _ : ~ ! $ & ' ( ) * + , ; = % @ *)
Definition url_userinfo (c : N) : bool :=
  url_alnum c || existsb (N.eqb c) [45;46;95;58;126;33;36;38;39;40;41;42;43;44;59;61;37;64].
(** net/url shouldEscape in host mode, negated, below 128: letters, digits,
    - _ . ~ ! $ & ' ( ) * + , ; = : [ ] < > quote *)
Definition url_host_char (c : N) : bool :=
  (128 <=? c) || url_alnum c || existsb (N.eqb c) [45;95;46;126;33;36;38;39;40;41;42;43;44;59;61;58;91;93;60;62;34].

Definition hex_val (c : N) : option N :=
  if (48 <=? c) && (c <=? 57) then Some (c - 48)
  else if (97 <=? c) && (c <=? 102) then Some (c - 87)
  else if (65 <=? c) && (c <=? 70) then Some (c - 55)
  else None.

(** net/url unescape; [host] selects the host mode *)
Fixpoint unescape (host : bool) (s : gostr) : option gostr :=
  match s with
  | [] => Some []
  | c :: s' =>
      if c =? 37 then
        match s' with
        | a :: b :: s'' =>
            match hex_val a, hex_val b with
            | Some x, Some y =>
                if host && (x <? 8) && negb ((x =? 2) && (y =? 5)) then None
                else option_map (cons (16 * x + y)) (unescape host s'')
            | _, _ => None
            end
        | _ => None
        end
      else if host && negb (url_host_char c) then None
      else option_map (cons c) (unescape host s')
  end.

Definition is_digit (c : N) : bool := (48 <=? c) && (c <=? 57).

(** net/url validOptionalPort: nothing, or a colon and digits *)
Definition optional_port (s : gostr) : bool :=
  match s with
  | [] => true
  | c :: d => (c =? 58) && forallb is_digit d
  end.

(** net/url parseHost *)
Definition parse_host (s : gostr) : option gostr :=
  match s with
  | 91 :: _ =>
      match cut_last (N.eqb 93) s with
      | None => None                                   (* missing ']' *)
      | Some (_, port) => if optional_port port then unescape true s else None
      end
  | _ =>
      match cut_last (N.eqb 58) s with
      | None => unescape true s
      | Some (_, d) => if forallb is_digit d then unescape true s else None
      end
  end.

(** URL.Hostname and URL.Port: splitHostPort *)
Definition strip_brackets (h : gostr) : gostr :=
  match h with
  | 91 :: t => match cut_last (N.eqb 93) t with Some (a, []) => a | _ => h end
  | _ => h
  end.
Definition split_host_port (h : gostr) : gostr * gostr :=
  match cut_last (N.eqb 58) h with
  | Some (a, d) => if forallb is_digit d then (strip_brackets a, d) else (strip_brackets h, [])
  | None => (strip_brackets h, [])
  end.

(** net/url parseAuthority: None is an error; the user information is optional,
    and so is its password *)
Definition parse_authority (s : gostr) : option (option (gostr * option gostr) * gostr) :=
  match cut_last (N.eqb 64) s with
  | None => option_map (pair None) (parse_host s)
  | Some (info, h) =>
      match parse_host h with
      | None => None
      | Some host =>
          if negb (forallb url_userinfo info) then None
          else
            let '(u, p) := cut_first (N.eqb 58) info in
            match unescape false u, (match p with None => Some None | Some p => option_map Some (unescape false p) end) with
            | Some u, Some p => Some (Some (u, p), host)
            | _, _ => None
            end
      end
  end.

Definition guest : gostr := [103;117;101;115;116].
Definition localhost : gostr := [108;111;99;97;108;104;111;115;116].

(** strconv.ParseInt(s, 10, 32) of a string of digits *)
Definition parse_port (s : gostr) : option Z :=
  if (digits_val s <? 2 ^ 31)%Z then Some (digits_val s) else None.

(** uri.go ParseURI; [path] is the part of the URL from the first slash after
    the authority on, without query and fragment *)
Definition uri_of (user : option (gostr * option gostr)) (host path : gostr) : option amqp_uri :=
  let '(h, p) := split_host_port host in
  match (match p with [] => Some 5672%Z | _ => parse_port p end) with
  | None => None
  | Some port =>
      Some (mkUri
        (match user with Some (u, _) => u | None => guest end)
        (match user with Some (_, Some p) => p | _ => guest end)
        (match h with [] => localhost | _ => h end)
        port
        (match path with
         | [] => [47]
         | [47] => [47]
         | 47 :: 47 :: 47 :: v => match host with [] => v | _ => 47 :: 47 :: v end
         | 47 :: v => v
         | _ => path
         end))
  end.

(** a control byte: net/url stringContainsCTLByte *)
Definition ctl (c : N) : bool := (c <? 32) || (c =? 127).

(** what amqp.Dial connects with; None when it reports an error *)
Definition amqp_read (url : gostr) : option amqp_uri :=
  if existsb (N.eqb 32) url then None                        (* errURIWhitespace *)
  else
    let '(main, fragment) := cut_first (N.eqb 35) url in
    if existsb ctl main then None
    else if negb (match unescape false (match fragment with Some f => f | None => [] end) with Some _ => true | None => false end) then None
    else
      match main with
      | 97 :: 109 :: 113 :: 112 :: 58 :: 47 :: 47 :: rest =>
          let '(rest, _) := cut_first (N.eqb 63) rest in      (* the query *)
          let '(authority, tail) := cut_first (N.eqb 47) rest in
          match parse_authority authority, unescape false (match tail with Some t => 47 :: t | None => [] end) with
          | Some (user, host), Some path => uri_of user host path
          | _, _ => None
          end
      | _ => None
      end.
