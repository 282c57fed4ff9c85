(** * Address: what server.go:27 (net.Listen("tcp", addr)) makes of the address
    that config.go:26-28 builds.  No proofs here.

    Go's net.SplitHostPort (net/ipsock.go), which net.Listen applies to its
    address.  Not modelled: what the two parts mean (a name to be resolved, a
    service name). *)
From Verif Require Import GoBase Amqp.

(** s[0] == c, and the rest *)
Definition after (c : N) (s : gostr) : option gostr :=
  match s with d :: t => if d =? c then Some t else None | [] => None end.

(** None: missing port, too many colons, a stray or missing bracket *)
Definition split_hostport (s : gostr) : option (gostr * gostr) :=
  match cut_last (N.eqb 58) s with                                     (* i *)
  | None => None
  | Some (before, port) =>
      match after 91 s with                                            (* hostport[0] == '[' *)
      | Some t =>
          match cut_first (N.eqb 93) t with                            (* end *)
          | (_, None) => None
          | (host, Some rest) =>
              match after 58 rest with
              | Some p =>
                  if existsb (N.eqb 58) p then None                    (* end+1 is not i *)
                  else if existsb (N.eqb 91) t then None               (* hostport[1:] *)
                  else if existsb (N.eqb 93) rest then None            (* hostport[end+1:] *)
                  else Some (host, port)
              | None => None
              end
          end
      | None =>
          if existsb (N.eqb 58) before then None
          else if existsb (N.eqb 91) s then None
          else if existsb (N.eqb 93) s then None
          else Some (before, port)
      end
  end.
