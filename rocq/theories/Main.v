(** * Main: cli/receiver/main.go and the running process: the storages it
    starts with, and the library calls it makes while serving.  No proofs here. *)
From Verif Require Import GoBase Float64 Storage Connectors Json Server Config.

(** config.go:15-21: what config.New returns (Yaml.v models the reader). *)
Record config := mkConfig { cg_settings : settings; cg_store : list (gostr * section) }.

(** main.go:11-44 up to srv.Run: the process exits (log.Fatalf), or a server is
    built.  [new] is config.New (os.ReadFile and yaml.Unmarshal); [path] the
    value of -c. *)
Inductive start :=
| StFatal
| StServe (addr : gostr) (ttl : Z) (level : log_level) (stores : list conn).
Definition main_start (lib : lib_call -> bool) (new : gostr -> option config) (path : gostr) : start :=
  match path with
  | [] => StFatal                                                      (* :16-18 *)
  | _ :: _ =>
      match new path with
      | None => StFatal                                                (* :20-23 *)
      | Some c => StServe (get_addr (cg_settings c)) (get_ttl (cg_settings c)) (get_level (cg_settings c))
                          (main_connectors lib (cg_store c))           (* :25-43 *)
      end
  end.

(** What the process cannot influence while it serves: the text of a float64,
    the text of the wall clock, and the answer of the client library of storage
    [k].  The last two may depend on everything storage [k] was handed before. *)
Record runtime := mkRt {
  rt_ft : f64 -> gostr;
  rt_time : nat -> list nav_record -> gostr;
  rt_lib : nat -> list nav_record -> lib_call -> bool }.

(** Connector.Save of storage [k] for the last record of [h] *)
Definition nav0 : nav_record := mkNav [] [] 0 0 0 [] [] [] 0.
Definition save_last (rt : runtime) (k : nat) (c : conn) (h : list nav_record) : option lib_call * save_out :=
  connector_save (rt_lib rt k h) c (to_bytes (rt_ft rt) (rt_time rt k h) (last h nav0)).
Definition store_of (rt : runtime) (k : nat) (c : conn) : saver := fun h => snd (save_last rt k c h).
Fixpoint stores_from (rt : runtime) (k : nat) (cs : list conn) : list saver :=
  match cs with
  | [] => []
  | c :: cs' => store_of rt k c :: stores_from rt (S k) cs'
  end.
Definition stores_of (rt : runtime) (cs : list conn) : list saver := stores_from rt 0 cs.

(** The library calls made by storage [k], each with the connection whose
    goroutine made it, in order; [hist] was handed to the storage before. *)
Fixpoint sent_from (rt : runtime) (k : nat) (c : conn) (hist : list nav_record) (tr : list (nat * event))
  : list (nat * lib_call) :=
  match tr with
  | [] => []
  | (i, ECall k' n _) :: tr' =>
      if Nat.eqb k k' then
        match fst (save_last rt k c (hist ++ [n])) with
        | Some call => [(i, call)]
        | None => []
        end ++ sent_from rt k c (hist ++ [n]) tr'
      else sent_from rt k c hist tr'
  | _ :: tr' => sent_from rt k c hist tr'
  end.
Definition sent (rt : runtime) (k : nat) (c : conn) (tr : list (nat * event)) : list (nat * lib_call) :=
  sent_from rt k c [] tr.
