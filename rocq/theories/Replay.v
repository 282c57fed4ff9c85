(** * Replay: tools/send_egts.py, the script that replays a file of packets to
    the receiver.  No proofs here.

    Not modelled: the command line, the pauses, a peer that closes the
    connection, files with carriage returns (text mode turns "\r\n" into "\n"),
    and a send that takes only part of the packet. *)
From Verif Require Import GoBase Float64 Package Server.

(** ASCII white space *)
Definition py_space (c : N) : bool := ((9 <=? c) && (c <=? 13)) || (c =? 32).
Definition py_digit (c : N) : option N :=
  if (48 <=? c) && (c <=? 57) then Some (c - 48)
  else if (97 <=? c) && (c <=? 102) then Some (c - 87)
  else if (65 <=? c) && (c <=? 70) then Some (c - 55)
  else None.

(** bytes.fromhex: pairs of digits, white space allowed between them; None is a
    ValueError *)
Fixpoint fromhex (s : gostr) : option bytes :=
  match s with
  | [] => Some []
  | c :: s' =>
      if py_space c then fromhex s'
      else match s' with
           | [] => None
           | d :: s'' =>
               match py_digit c, py_digit d with
               | Some x, Some y => option_map (cons (16 * x + y)) (fromhex s'')
               | _, _ => None
               end
           end
  end.

(** f.readlines(): the lines with their line feeds; the last may lack one *)
Fixpoint read_lines (s : gostr) : list gostr :=
  match s with
  | [] => []
  | c :: s' =>
      if c =? 10 then [10] :: read_lines s'
      else match read_lines s' with
           | [] => [[c]]
           | l :: ls => (c :: l) :: ls
           end
  end.

(** how the script ends: normally, with a ValueError, or waiting for ever *)
Inductive tool_end := TFinished | TFailed | TWaiting.

(** tools/send_egts.py:24-31.  [answers ps] is all that the peer writes back
    after it has received the packets [ps]; [sent] are the packets sent so far
    and [n] the number of bytes received so far.  rec[:-1] (:27) drops the last
    character of the line, whatever it is; recv(2048) (:30) takes some of what
    has arrived, and waits if nothing has. *)
Inductive tool (answers : list bytes -> bytes) : list gostr -> list bytes -> nat -> list bytes -> tool_end -> Prop :=
| tool_end_of_file sent n : tool answers [] sent n sent TFinished
| tool_bad_line l ls sent n :
    fromhex (removelast l) = None -> tool answers (l :: ls) sent n sent TFailed
| tool_next l ls sent n p k sent' e :
    fromhex (removelast l) = Some p ->
    (1 <= k <= 2048)%nat -> (n + k <= length (answers (sent ++ [p])))%nat ->
    tool answers ls (sent ++ [p]) (n + k) sent' e ->
    tool answers (l :: ls) sent n sent' e
| tool_waits l ls sent n p :
    fromhex (removelast l) = Some p -> (length (answers (sent ++ [p])) <= n)%nat ->
    tool answers (l :: ls) sent n (sent ++ [p]) TWaiting.

Section Replay.
Context {E : go_env}.
(** the receiver at the other end (server.go:55-205) *)
Definition receiver_answers (ps : list bytes) : bytes :=
  concat (flat_map (fun a => match a with AWrite b => [b] | ASave _ => [] end) (fst (conn_exec (mkIn ps COpen)))).
Definition replays (file : gostr) (sent : list bytes) (e : tool_end) : Prop :=
  tool receiver_answers (read_lines file) [] 0 sent e.
End Replay.
