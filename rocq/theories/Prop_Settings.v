(** * Prop_Settings: C143 — the documented settings take effect. *)
From Coq Require Import String List Lia Bool.
From Verif Require Import GoBase Storage Connectors Spec_Storage Spec_Settings StorageFacts.
Import ListNotations.
Local Open Scope N_scope.
Local Open Scope list_scope.

(** ** C143: two sections that differ in a documented setting differ in what the
    receiver does with its records.  Refuted: the nsq connector documents
    "servers" and reads "server"; the rabbitmq connector documents
    "exchange_type" and does not read it. *)
Theorem C143_documented_settings_refuted :
  In "servers"%string (documented_keys KNsq) /\ (forall m v v', same_conduct KNsq (with_setting m "servers" v) (with_setting m "servers" v')) /\
  In "exchange_type"%string (documented_keys KRabbit) /\
  (forall m v v', same_conduct KRabbit (with_setting m "exchange_type" v) (with_setting m "exchange_type" v')) /\
  (forall servers topic lib c, connector_init lib KNsq (Some [(text "servers", servers); (text "topic", topic)]) = Some c ->
     c = CnNsq [] topic).
Proof.
  split; [left; reflexivity|]. split; [intros m v v' lib lib' b; reflexivity|].
  split; [do 5 right; left; reflexivity|]. split; [intros m v v' lib lib' b; reflexivity|].
  intros servers topic lib c. unfold connector_init, init_nsq. change (mval _ k_server) with (@nil N). change (mval _ k_topic) with topic.
  destruct (lib (LNsqProducer [])); cbn [negb]; intros H; [injection H as H; rewrite <- H; reflexivity|discriminate H].
Qed.

Lemma str_eqb_same a : str_eqb a a = true.
Proof. apply str_eqb_eq. reflexivity. Qed.
Lemma atoi_same v v' z : atoi v = Some z -> (same_number v v' <-> atoi v' = Some z).
Proof.
  intros H. unfold same_number. split.
  - intros G. apply atoi_numeral. apply G. apply atoi_numeral. exact H.
  - intros H' x. rewrite <- !atoi_numeral, H, H'. tauto.
Qed.
Definition yes : lib_call -> bool := fun _ => true.

(** Exactly: the other keys are ignored, and every effective key takes effect — a
    number by its value, the nats credentials only together. *)
Theorem C143_other_keys_ignored : forall k m key v v', ~ In key (effective_keys k) ->
  same_conduct k (with_setting m key v) (with_setting m key v').
Proof.
  intros k m key v v' Hn.
  assert (G : forall x, In x (effective_keys k) -> mget (with_setting m key v) (text x) = mget (with_setting m key v') (text x)).
  { intros x Hx. unfold with_setting. cbn [mget]. destruct (str_eqb (text key) (text x)) eqn:He; [|reflexivity].
    exfalso. apply str_eqb_eq in He. apply Hn.
    assert (key = x) as ->; [|exact Hx]. clear -He. revert x He. induction key as [|a s IH]; intros [|c x] He; cbn in He; try discriminate; [reflexivity|].
    apply (f_equal (fun l => match l with [] => (0, []) | h :: t => (h, t) end)) in He. cbv beta iota in He.
    apply (f_equal fst) in He as Ha. apply (f_equal snd) in He as Hb. cbn [fst snd] in *.
    rewrite (IH x Hb). rewrite <- (Ascii.ascii_N_embedding a), <- (Ascii.ascii_N_embedding c), Ha. reflexivity. }
  intros lib lib' b. f_equal.
  set (s := with_setting m key v) in *. set (s' := with_setting m key v') in *. clearbody s s'.
  destruct k; cbn [connector_init effective_keys In] in *.
  - assert (G0 : mget s k_user = mget s' k_user) by exact (G "user"%string ltac:(auto 12)).
    assert (G1 : mget s k_password = mget s' k_password) by exact (G "password"%string ltac:(auto 12)).
    assert (G2 : mget s k_host = mget s' k_host) by exact (G "host"%string ltac:(auto 12)).
    assert (G3 : mget s k_port = mget s' k_port) by exact (G "port"%string ltac:(auto 12)).
    assert (G4 : mget s k_exchange = mget s' k_exchange) by exact (G "exchange"%string ltac:(auto 12)).
    assert (G5 : mget s k_key = mget s' k_key) by exact (G "key"%string ltac:(auto 12)).
    unfold init_rabbit, amqp_url, mval. rewrite G0, G1, G2, G3, G4, G5. reflexivity.
  - assert (G0 : mget s k_user = mget s' k_user) by exact (G "user"%string ltac:(auto 12)).
    assert (G1 : mget s k_password = mget s' k_password) by exact (G "password"%string ltac:(auto 12)).
    assert (G2 : mget s k_host = mget s' k_host) by exact (G "host"%string ltac:(auto 12)).
    assert (G3 : mget s k_port = mget s' k_port) by exact (G "port"%string ltac:(auto 12)).
    assert (G4 : mget s k_database = mget s' k_database) by exact (G "database"%string ltac:(auto 12)).
    assert (G5 : mget s k_table = mget s' k_table) by exact (G "table"%string ltac:(auto 12)).
    assert (G6 : mget s k_sslmode = mget s' k_sslmode) by exact (G "sslmode"%string ltac:(auto 12)).
    unfold init_pg, pg_dsn, pg_query, mval. rewrite G0, G1, G2, G3, G4, G5, G6. reflexivity.
  - assert (G0 : mget s k_user = mget s' k_user) by exact (G "user"%string ltac:(auto 12)).
    assert (G1 : mget s k_password = mget s' k_password) by exact (G "password"%string ltac:(auto 12)).
    assert (G2 : mget s k_servers = mget s' k_servers) by exact (G "servers"%string ltac:(auto 12)).
    assert (G3 : mget s k_topic = mget s' k_topic) by exact (G "topic"%string ltac:(auto 12)).
    unfold init_nats, nats_name, nats_user, mval. rewrite G0, G1, G2, G3. reflexivity.
  - assert (G0 : mget s k_server = mget s' k_server) by exact (G "server"%string ltac:(auto 12)).
    assert (G1 : mget s k_topic = mget s' k_topic) by exact (G "topic"%string ltac:(auto 12)).
    unfold init_nsq, mval. rewrite G0, G1. reflexivity.
  - assert (G0 : mget s k_user = mget s' k_user) by exact (G "user"%string ltac:(auto 12)).
    assert (G1 : mget s k_password = mget s' k_password) by exact (G "password"%string ltac:(auto 12)).
    assert (G2 : mget s k_host = mget s' k_host) by exact (G "host"%string ltac:(auto 12)).
    assert (G3 : mget s k_port = mget s' k_port) by exact (G "port"%string ltac:(auto 12)).
    assert (G4 : mget s k_max_recons = mget s' k_max_recons) by exact (G "max_recons"%string ltac:(auto 12)).
    assert (G5 : mget s k_timeout = mget s' k_timeout) by exact (G "timeout"%string ltac:(auto 12)).
    assert (G6 : mget s k_reconnect = mget s' k_reconnect) by exact (G "reconnect"%string ltac:(auto 12)).
    assert (G7 : mget s k_queue = mget s' k_queue) by exact (G "queue"%string ltac:(auto 12)).
    unfold init_tnt, tnt_addr, mval. rewrite G0, G1, G2, G3, G4, G5, G6, G7. reflexivity.
  - assert (G0 : mget s k_server = mget s' k_server) by exact (G "server"%string ltac:(auto 12)).
    assert (G1 : mget s k_queue = mget s' k_queue) by exact (G "queue"%string ltac:(auto 12)).
    assert (G2 : mget s k_password = mget s' k_password) by exact (G "password"%string ltac:(auto 12)).
    assert (G3 : mget s k_db = mget s' k_db) by exact (G "db"%string ltac:(auto 12)).
    unfold init_redis, mval. rewrite G0, G1, G2, G3. reflexivity.
Qed.

Ltac norm_at H :=
  repeat match type of H with
  | context [mval (with_setting ?m ?k ?v) ?q] =>
      first [change (mval (with_setting m k v) q) with v in H | change (mval (with_setting m k v) q) with (mval m q) in H]
  | context [mget (with_setting ?m ?k ?v) ?q] =>
      first [change (mget (with_setting m k v) q) with (Some v) in H | change (mget (with_setting m k v) q) with (mget m q) in H]
  end.
Ltac norm :=
  repeat match goal with
  | |- context [mval (with_setting ?m ?k ?v) ?q] =>
      first [change (mval (with_setting m k v) q) with v | change (mval (with_setting m k v) q) with (mval m q)]
  | |- context [mget (with_setting ?m ?k ?v) ?q] =>
      first [change (mget (with_setting m k v) q) with (Some v) | change (mget (with_setting m k v) q) with (mget m q)]
  end.
Ltac open_in H := unfold connector_init, init_rabbit, amqp_url, init_pg, pg_dsn, pg_query, init_nats, nats_name, nats_user, init_nsq, init_tnt, tnt_addr, init_redis in H.
(** a part of a text that goes into the call *)
Ltac by_call H :=
  specialize (H yes yes []); open_in H; norm_at H;
  cbv beta iota zeta delta [yes negb option_map connector_save publish_call] in H;
  left.

Lemma app_mid (a b x y : gostr) : a ++ x ++ b = a ++ y ++ b -> x = y.
Proof. intros H. apply app_inv_head in H. apply app_inv_tail in H. exact H. Qed.

Ltac peel E := repeat first [apply app_inv_head in E | apply app_mid in E | apply app_inv_tail in E | (injection E as E)].
Ltac found := intros; try assumption;
  match goal with E : _ = _ |- ?a = ?b => peel E; exact E end.

Definition lib_nats (u p : gostr) (c : lib_call) : bool :=
  match c with LNatsConnect _ _ (Some (a, b)) => str_eqb a u && str_eqb b p | _ => true end.
Definition lib_tnt (t r mr : Z) (u p : gostr) (c : lib_call) : bool :=
  match c with LTntConnect _ t' r' mr' a b => (t =? t')%Z && (r =? r')%Z && (mr =? mr')%Z && str_eqb a u && str_eqb b p | _ => true end.
Lemma lib_nats_self u p s n : lib_nats u p (LNatsConnect s n (Some (u, p))) = true.
Proof. cbn. rewrite !str_eqb_same. reflexivity. Qed.
Lemma lib_tnt_self t r mr u p a : lib_tnt t r mr u p (LTntConnect a t r mr u p) = true.
Proof. cbn. rewrite !Z.eqb_refl, !str_eqb_same. reflexivity. Qed.
Lemma lib_tnt_true t r mr u p a t' r' mr' u' p' : lib_tnt t r mr u p (LTntConnect a t' r' mr' u' p') = true ->
  t = t' /\ r = r' /\ mr = mr' /\ u' = u /\ p' = p.
Proof.
  cbn. rewrite !andb_true_iff, !Z.eqb_eq. intros ((((A & B) & C) & D) & F).
  apply str_eqb_eq in D. apply str_eqb_eq in F. auto.
Qed.

(** nats: opening with the credentials. *)
Lemma nats_credentials m m' u p : same_conduct KNats m m' -> mget m k_user = Some u -> mget m k_password = Some p ->
  forall u' p', mget m' k_user = Some u' -> mget m' k_password = Some p' -> u' = u /\ p' = p.
Proof.
  intros H Hu Hp u' p' Hu' Hp'. specialize (H (lib_nats u p) yes []). cbn [connector_init init_nats] in H.
  unfold nats_user in H. rewrite Hu, Hp, Hu', Hp' in H. rewrite lib_nats_self in H. cbn [negb option_map] in H.
  destruct (lib_nats u p (LNatsConnect (mval m' k_servers) (nats_name m') (Some (u', p')))) eqn:E; [|discriminate H].
  cbn [lib_nats] in E. apply andb_true_iff in E. destruct E as (A & B). apply str_eqb_eq in A. apply str_eqb_eq in B. auto.
Qed.
(** tarantool: opening with the numbers and the credentials. *)
Lemma tnt_opening m m' : same_conduct KTarantool m m' -> usable KTarantool m ->
  exists mr t r, atoi (mval m k_max_recons) = Some mr /\ atoi (mval m' k_max_recons) = Some mr /\
    atoi (mval m k_timeout) = Some t /\ atoi (mval m' k_timeout) = Some t /\
    atoi (mval m k_reconnect) = Some r /\ atoi (mval m' k_reconnect) = Some r /\
    mval m' k_user = mval m k_user /\ mval m' k_password = mval m k_password /\
    tnt_addr m' = tnt_addr m /\ mval m' k_queue = mval m k_queue.
Proof.
  intros H (lib & Hus). cbn [connector_init init_tnt] in Hus.
  destruct (atoi (mval m k_max_recons)) as [mr|] eqn:E1; [|congruence].
  destruct (atoi (mval m k_timeout)) as [t|] eqn:E2; [|congruence].
  destruct (atoi (mval m k_reconnect)) as [r|] eqn:E3; [|congruence].
  specialize (H (lib_tnt t r mr (mval m k_user) (mval m k_password)) yes []). cbn [connector_init init_tnt] in H.
  rewrite E1, E2, E3, lib_tnt_self in H. cbn [negb option_map] in H.
  destruct (atoi (mval m' k_max_recons)) as [mr'|] eqn:F1; [|discriminate H].
  destruct (atoi (mval m' k_timeout)) as [t'|] eqn:F2; [|discriminate H].
  destruct (atoi (mval m' k_reconnect)) as [r'|] eqn:F3; [|discriminate H].
  destruct (lib_tnt t r mr (mval m k_user) (mval m k_password) (LTntConnect (tnt_addr m') t' r' mr' (mval m' k_user) (mval m' k_password))) eqn:E; [|discriminate H].
  apply lib_tnt_true in E. destruct E as (-> & -> & -> & -> & ->). cbn [negb option_map connector_save publish_call yes] in H.
  injection H as A B. exists mr', t', r'. repeat split; congruence.
Qed.
Lemma redis_opening m m' : same_conduct KRedis m m' -> usable KRedis m ->
  exists db, atoi (mval m k_db) = Some db /\ atoi (mval m' k_db) = Some db /\ mget m' k_server = mget m k_server /\
    mget m' k_queue = mget m k_queue /\ mval m' k_password = mval m k_password.
Proof.
  intros H (lib & Hus). cbn [connector_init init_redis negb] in Hus.
  destruct (mget m k_server) as [s|] eqn:E1; [|congruence]. destruct (atoi (mval m k_db)) as [db|] eqn:E2; [|congruence].
  destruct (mget m k_queue) as [q|] eqn:E3; [|congruence].
  specialize (H yes yes []). cbn [connector_init init_redis negb] in H. rewrite E1, E2, E3 in H. cbn [option_map connector_save publish_call yes] in H.
  destruct (mget m' k_server) as [s'|] eqn:F1; [|discriminate H]. destruct (atoi (mval m' k_db)) as [db'|] eqn:F2; [|discriminate H].
  destruct (mget m' k_queue) as [q'|] eqn:F3; [|discriminate H].
  cbn [option_map connector_save publish_call yes] in H. injection H as A B C D. exists db. repeat split; congruence.
Qed.

(** ** C143, exactly: a section that opens behaves the same with another value of an
    effective key only when the value is the same — the same number, for a number —
    or the key is one of the nats credentials without the other. *)
Theorem C143_effective_exactly : forall k m key v v', In key (effective_keys k) -> usable k (with_setting m key v) ->
  (same_conduct k (with_setting m key v) (with_setting m key v') <->
   v = v' \/ (numeric k key /\ same_number v v') \/ lacks_partner k m key).
Proof.
  intros k m key v v' Hin Hus. split.
  - intros H. destruct k; cbn [effective_keys In] in Hin.
    + destruct Hin as [<-|[<-|[<-|[<-|[<-|[<-|[]]]]]]]; by_call H; injection H; found.
    + destruct Hin as [<-|[<-|[<-|[<-|[<-|[<-|[<-|[]]]]]]]]; by_call H; injection H; found.
    + destruct Hin as [<-|[<-|[<-|[<-|[]]]]].
      * by_call H; injection H; found.
      * by_call H; injection H; found.
      * destruct (mget m k_password) as [p|] eqn:Ep; [|right; right; split; [reflexivity|left; split; [reflexivity|exact Ep]]].
        left. symmetry. exact (proj1 (nats_credentials _ _ v p H eq_refl Ep v' p eq_refl Ep)).
      * destruct (mget m k_user) as [u|] eqn:Ep; [|right; right; split; [reflexivity|right; split; [reflexivity|exact Ep]]].
        left. symmetry. exact (proj2 (nats_credentials _ _ u v H Ep eq_refl u v' Ep eq_refl)).
    + destruct Hin as [<-|[<-|[]]]; by_call H; injection H; found.
    + destruct (tnt_opening _ _ H Hus) as (mr & t & r & A1 & A2 & B1 & B2 & C1 & C2 & D1 & D2 & D3 & D4).
      unfold tnt_addr in D3. clear H Hus.
      destruct Hin as [<-|[<-|[<-|[<-|[<-|[<-|[<-|[<-|[]]]]]]]]].
      * norm_at D3. left. symmetry. apply app_inv_tail in D3. exact D3.
      * norm_at D3. left. symmetry. apply app_inv_head in D3. exact (f_equal (@tl N) D3).
      * left. symmetry. exact D1.
      * left. symmetry. exact D2.
      * right. left. split; [left; reflexivity|]. apply (proj2 (atoi_same v v' mr A1)). exact A2.
      * right. left. split; [right; left; reflexivity|]. apply (proj2 (atoi_same v v' t B1)). exact B2.
      * right. left. split; [right; right; left; reflexivity|]. apply (proj2 (atoi_same v v' r C1)). exact C2.
      * left. symmetry. exact D4.
    + destruct (redis_opening _ _ H Hus) as (db & A1 & A2 & B & C & D). clear H Hus.
      destruct Hin as [<-|[<-|[<-|[<-|[]]]]].
      * left. symmetry. injection B as B. exact B.
      * left. symmetry. injection C as C. exact C.
      * left. symmetry. exact D.
      * right. left. split; [reflexivity|]. apply (proj2 (atoi_same v v' db A1)). exact A2.
  - intros [<-|[(Hnum & Hs)|(-> & [(-> & Hm)|(-> & Hm)])]].
    + intros lib lib' b. reflexivity.
    + assert (Ha : atoi v = atoi v').
      { destruct (atoi v) as [z|] eqn:E; [symmetry; apply (proj1 (atoi_same v v' z E)); exact Hs|].
        destruct (atoi v') as [z|] eqn:E'; [|reflexivity]. apply atoi_numeral in E'. apply Hs in E'. apply atoi_numeral in E'. congruence. }
      intros lib lib' b. f_equal. destruct k; cbn [numeric In] in Hnum; try tauto.
      * cbn [connector_init init_tnt]. unfold tnt_addr.
        destruct Hnum as [<-|[<-|[<-|[]]]]; norm; rewrite Ha; reflexivity.
      * subst key. cbn [connector_init init_redis negb]. norm. rewrite Ha. reflexivity.
    + intros lib lib' b. cbn [connector_init init_nats]. unfold nats_user, nats_name. norm. change (text "password") with k_password in Hm. rewrite Hm. reflexivity.
    + intros lib lib' b. cbn [connector_init init_nats]. unfold nats_user, nats_name. norm. change (text "user") with k_user in Hm. rewrite Hm. reflexivity.
Qed.

(** The theorems are not vacuous: sections of every kind open, an effective
    setting changes the calls, "7" and "07" are the same database number, and a
    nats user without a password is ignored. *)
Definition ex_redis : list (gostr * gostr) :=
  [(text "server", text "localhost:6379"); (text "queue", text "egts"); (text "password", text ""); (text "db", text "7")].
Example C143_settings_example :
  usable KRedis ex_redis /\ ~ same_conduct KRedis (with_setting ex_redis "db" (text "7")) (with_setting ex_redis "db" (text "8")) /\
  same_conduct KRedis (with_setting ex_redis "db" (text "7")) (with_setting ex_redis "db" (text "07")) /\
  usable KNats [(text "servers", text "nats://localhost:4222")] /\
  same_conduct KNats (with_setting [] "user" (text "egts")) (with_setting [] "user" (text "root")) /\
  ~ same_conduct KNats (with_setting [(text "password", text "x")] "user" (text "egts")) (with_setting [(text "password", text "x")] "user" (text "root")) /\
  usable KNsq [] /\ usable KRabbit [] /\ usable KPostgres [] /\
  usable KTarantool [(text "max_recons", text "5"); (text "timeout", text "1"); (text "reconnect", text "1")].
Proof.
  assert (Hu : usable KRedis ex_redis) by (exists yes; vm_compute; congruence).
  split; [exact Hu|]. split.
  { intros H. specialize (H yes yes []). vm_compute in H. discriminate H. }
  split; [intros lib lib' b; vm_compute; reflexivity|].
  split; [exists yes; vm_compute; congruence|].
  split; [intros lib lib' b; reflexivity|]. split.
  { intros H. destruct (nats_credentials _ _ (text "egts") (text "x") H eq_refl eq_refl (text "root") (text "x") eq_refl eq_refl) as (A & _).
    vm_compute in A. discriminate A. }
  repeat split; exists yes; vm_compute; congruence.
Qed.
Print Assumptions C143_documented_settings_refuted.
Print Assumptions C143_other_keys_ignored.
Print Assumptions C143_effective_exactly.
