(** * Storage: cli/receiver/storage/packet.go and store.go.  No proofs here. *)
From Verif Require Import GoBase Float64.

(** ** Instants and their RFC 3339 text *)

(** Unix time of 2010-01-01T00:00:00Z. *)
Definition unix_2010 : Z := 1262304000.
(** (time.Time).Unix() of an instant given in ns since 2010. *)
Definition unix_of (t : Z) : Z := (t / 1000000000 + unix_2010)%Z.

(** Proleptic Gregorian date of a day number (days since 1970-01-01); this is
    package time's calendar computation, here in the era-based form. *)
Definition civil_of_days (z : Z) : Z * Z * Z :=
  (let z := z + 719468 in
   let era := z / 146097 in
   let doe := z mod 146097 in
   let yoe := (doe - doe / 1460 + doe / 36524 - doe / 146096) / 365 in
   let doy := doe - (365 * yoe + yoe / 4 - yoe / 100) in
   let mp := (5 * doy + 2) / 153 in
   let d := doy - (153 * mp + 2) / 5 + 1 in
   let m := if mp <? 10 then mp + 3 else mp - 9 in
   let y := yoe + era * 400 + (if m <=? 2 then 1 else 0) in
   (y, m, d))%Z.

(** Decimal digits with leading zeros (width w). *)
Fixpoint dec_digits (w : nat) (v : Z) : gostr :=
  match w with
  | O => []
  | S w' => dec_digits w' (v / 10) ++ [Z.to_N (48 + v mod 10)]
  end.

(** t.Format(time.RFC3339) for a UTC time with a year of four digits. *)
Definition rfc3339 (t : Z) : gostr :=
  (let u := unix_of t in
   let '(y, m, d) := civil_of_days (u / 86400) in
   let s := u mod 86400 in
   dec_digits 4 y ++ [45%N] ++ dec_digits 2 m ++ [45%N] ++ dec_digits 2 d ++ [84%N]
   ++ dec_digits 2 (s / 3600) ++ [58%N] ++ dec_digits 2 (s mod 3600 / 60) ++ [58%N]
   ++ dec_digits 2 (s mod 60) ++ [90%N])%Z.

(** ** packet.go *)

(** packet.go:24-29 *)
Record loc_state := mkLoc {
  lsLat : f64; lsLng : f64; lsSpeed : N; lsNavDt : gostr }.
(** packet.go:31-38 *)
Record liquid_sensor := mkLiqS {
  lqNumber : N; lqModule : N; lqError : gostr; lqUnit : gostr; lqMm : N; lqL : f64 }.
(** packet.go:40-43 *)
Record an_sensor := mkAnS { anNumber : N; anValue : N }.
(** packet.go:7-18.  ReceivedDt (the wall clock at reception) is not modelled;
    LocStatesCount is an int32, here an N: a packet holds fewer than 65536
    subrecords, so it cannot overflow. *)
Record nav_record := mkNav {
  nrServerID : gostr; nrIMEI : gostr; nrClientID : N; nrPacketID : N;
  nrNavTs : Z; nrAn : list an_sensor; nrLiq : list liquid_sensor;
  nrLocs : list loc_state; nrCount : N }.

(** ** store.go *)

(** What one call of Saver.Save does: nil, an error, or a panic (the redis
    connector panics: store/redis/connector.go). *)
Inductive save_out := SvOk | SvErr | SvPanic.

(** A storage: its answer may depend on everything handed to it so far
    (oldest first, including the record being saved). *)
Definition saver := list nav_record -> save_out.

(** store.go:48-55: Repository.Save over the registered storages, with the
    history of each.  Stops at the first error. *)
Fixpoint repo_save (stores : list saver) (hists : list (list nav_record)) (m : nav_record)
  : list (list nav_record) * save_out :=
  match stores, hists with
  | [], _ => (hists, SvOk)
  | _ :: _, [] => (hists, SvOk)
  | s :: stores', h :: hists' =>
      let h' := h ++ [m] in
      match s h' with
      | SvOk => let '(r, o) := repo_save stores' hists' m in (h' :: r, o)
      | o => (h' :: hists', o)
      end
  end.

(** store.go:65-80: the known storage names. *)
Inductive store_kind := KRabbit | KPostgres | KNats | KNsq | KTarantool | KRedis.
Definition str_rabbitmq : gostr := [114;97;98;98;105;116;109;113].
Definition str_postgresql : gostr := [112;111;115;116;103;114;101;115;113;108].
Definition str_nats : gostr := [110;97;116;115].
Definition str_nsq : gostr := [110;115;113].
Definition str_tarantool : gostr := [116;97;114;97;110;116;111;111;108;95;113;117;101;117;101].
Definition str_redis : gostr := [114;101;100;105;115].
Definition store_kind_of (name : gostr) : option store_kind :=
  if str_eqb name str_rabbitmq then Some KRabbit
  else if str_eqb name str_postgresql then Some KPostgres
  else if str_eqb name str_nats then Some KNats
  else if str_eqb name str_nsq then Some KNsq
  else if str_eqb name str_tarantool then Some KTarantool
  else if str_eqb name str_redis then Some KRedis
  else None.

Inductive load_out := LdOk | LdInvalid | LdUnknown | LdInitErr.

Section Load.
(** parameters of one storage section, and the outcome of Connector.Init *)
Variable params : Type.
Variable init : store_kind -> params -> bool.

(** store.go:64-87: the loop over the map in some iteration order; [acc] are
    the storages registered so far (r.storages). *)
Fixpoint load_loop (acc : list (store_kind * params)) (cfg : list (gostr * params))
  : list (store_kind * params) * load_out :=
  match cfg with
  | [] => (acc, LdOk)
  | (name, ps) :: cfg' =>
      match store_kind_of name with
      | None => (acc, LdUnknown)
      | Some k => if init k ps then load_loop (acc ++ [(k, ps)]) cfg' else (acc, LdInitErr)
      end
  end.
(** store.go:58-89 *)
Definition load_storages (acc : list (store_kind * params)) (cfg : list (gostr * params))
  : list (store_kind * params) * load_out :=
  match cfg with
  | [] => (acc, LdInvalid)
  | _ :: _ => load_loop acc cfg
  end.

End Load.
