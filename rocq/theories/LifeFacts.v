(** * LifeFacts: proofs about Lifecycle.v. *)
From Coq Require Import String List Lia ZifyBool ZifyN ZifyNat.
From Verif Require Import GoBase Float64 Storage Connectors Lifecycle Spec_Storage Spec_Main Spec_Life StorageFacts.

Ltac lf_unf := unfold open_storage, rabbit_open, pg_open, nats_open, nsq_open, tnt_open, redis_open, single_open, obtain, ask, give in *;
  cbv beta iota zeta in *; cbn [w_calls w_next w_open o_conn o_chan fst snd] in *.

(** The outcome is the one of Connectors.v. *)
Lemma open_agrees : forall lib k o s w,
  snd (fst (open_storage (fun _ => lib) k o s w)) = match connector_init lib k s with Some _ => true | None => false end.
Proof.
  intros lib k o s w. destruct k, s as [m|]; cbn [connector_init init_rabbit init_pg init_nats init_nsq init_tnt init_redis]; lf_unf; try reflexivity.
  - destruct (lib (LAmqpDial _)); cbn [negb]; [|reflexivity]. lf_unf. destruct (lib (LAmqpChannel _)); reflexivity.
  - destruct (lib (LPgOpen _)); cbn [negb]; [|reflexivity]. lf_unf. destruct (lib (LPgPing _)); reflexivity.
  - destruct (lib _); reflexivity.
  - destruct (lib _); reflexivity.
  - destruct (atoi (mval m k_max_recons)); [|reflexivity]. destruct (atoi (mval m k_timeout)); [|reflexivity].
    destruct (atoi (mval m k_reconnect)); [|reflexivity]. destruct (lib _); reflexivity.
  - destruct (mget m k_server); [|reflexivity]. cbn [negb]. destruct (atoi (mval m k_db)); [|reflexivity]. destruct (mget m k_queue); reflexivity.
Qed.

(** What a call of Init on a new connector opens: on success the handles in its
    fields. *)
Lemma open_ok : forall lib k s w o w', open_storage lib k obj0 s w = (o, true, w') ->
  w_next w' = (w_next w + (if match k with KRabbit => true | _ => false end then 2 else 1))%nat /\
  o_conn o = Some (w_next w) /\ o_chan o = match k with KRabbit => Some (S (w_next w)) | _ => None end /\
  w_open w' = w_open w ++ mkH (w_next w) None :: match k with KRabbit => [mkH (S (w_next w)) (Some (w_next w))] | _ => [] end.
Proof.
  intros lib k s w o w' H. destruct k, s as [m|]; lf_unf; try discriminate.
  - destruct (lib _ (LAmqpDial _)); [|discriminate]. lf_unf. destruct (lib _ (LAmqpChannel _)); [|discriminate].
    injection H as Ho Hw. subst. cbn. rewrite <- app_assoc. split; [lia|]. auto.
  - destruct (lib _ (LPgOpen _)); [|discriminate]. lf_unf. destruct (lib _ (LPgPing _)); [|discriminate].
    injection H as Ho Hw. subst. cbn. split; [lia|]. auto.
  - destruct (lib _ _); [|discriminate]. injection H as Ho Hw. subst. cbn. split; [lia|]. auto.
  - destruct (lib _ _); [|discriminate]. injection H as Ho Hw. subst. cbn. split; [lia|]. auto.
  - destruct (atoi (mval m k_max_recons)); [|discriminate]. destruct (atoi (mval m k_timeout)); [|discriminate].
    destruct (atoi (mval m k_reconnect)); [|discriminate].
    destruct (lib _ _); [|discriminate]. injection H as Ho Hw. subst. cbn. split; [lia|]. auto.
  - destruct (mget m k_server); [|discriminate]. destruct (atoi (mval m k_db)); [|discriminate]. destruct (mget m k_queue); [|discriminate].
    injection H as Ho Hw. subst. cbn. split; [lia|]. auto.
Qed.

(** On failure: nothing, or one handle when it failed half way. *)
Lemma open_fails : forall lib k s w o w', open_storage lib k obj0 s w = (o, false, w') ->
  o_chan o = None /\
  ((o_conn o = Some (w_next w) /\ w_next w' = S (w_next w) /\ w_open w' = w_open w ++ [mkH (w_next w) None] /\
    exists m, s = Some m /\ half_open (lib (w_calls w)) (lib (S (w_calls w))) k m) \/
   (o_conn o = None /\ w_next w' = w_next w /\ w_open w' = w_open w /\
    forall m, s = Some m -> ~ half_open (lib (w_calls w)) (lib (S (w_calls w))) k m)).
Proof.
  intros lib k s w o w' H. destruct s as [m|].
  2:{ destruct k; lf_unf; injection H as Ho Hw; subst; (split; [reflexivity|right; repeat split; discriminate]). }
  destruct k; lf_unf.
  - change (text "amqp://" ++ _) with (amqp_url m) in *.
    assert (Hh : half_open (lib (w_calls w)) (lib (S (w_calls w))) KRabbit m <->
      lib (w_calls w) (LAmqpDial (amqp_url m)) = true /\ lib (S (w_calls w)) (LAmqpChannel (amqp_url m)) = false) by reflexivity.
    destruct (lib (w_calls w) (LAmqpDial _)).
    + lf_unf. destruct (lib (S (w_calls w)) (LAmqpChannel _)); [discriminate|]. injection H as Ho Hw. subst. cbn.
      split; [reflexivity|]. left. repeat split; try reflexivity. exists m. split; [reflexivity|apply Hh; auto].
    + injection H as Ho Hw. subst. cbn. split; [reflexivity|]. right. repeat split; try reflexivity.
      intros m' Hm. injection Hm as <-. rewrite Hh. intros [? _]. discriminate.
  - assert (Hh : half_open (lib (w_calls w)) (lib (S (w_calls w))) KPostgres m <->
      lib (w_calls w) (LPgOpen (pg_dsn m)) = true /\ lib (S (w_calls w)) (LPgPing (pg_dsn m)) = false) by reflexivity.
    destruct (lib (w_calls w) (LPgOpen _)).
    + lf_unf. destruct (lib (S (w_calls w)) (LPgPing _)); [discriminate|]. injection H as Ho Hw. subst. cbn.
      split; [reflexivity|]. left. repeat split; try reflexivity. exists m. split; [reflexivity|apply Hh; auto].
    + injection H as Ho Hw. subst. cbn. split; [reflexivity|]. right. repeat split; try reflexivity.
      intros m' Hm. injection Hm as <-. rewrite Hh. intros [? _]. discriminate.
  - destruct (lib _ _); [discriminate|]. injection H as Ho Hw. subst. split; [reflexivity|right; repeat split; intros ? _ []].
  - destruct (lib _ _); [discriminate|]. injection H as Ho Hw. subst. split; [reflexivity|right; repeat split; intros ? _ []].
  - destruct (atoi (mval m k_max_recons)); [destruct (atoi (mval m k_timeout)); [destruct (atoi (mval m k_reconnect));
      [destruct (lib _ _); [discriminate|]| ]| ]| ];
      injection H as Ho Hw; subst; (split; [reflexivity|right; repeat split; intros ? _ []]).
  - destruct (mget m k_server) eqn:Hs.
    2:{ injection H as Ho Hw. subst. split; [reflexivity|right; repeat split]. intros m' Hm. injection Hm as <-. intros [H _]. apply H. exact Hs. }
    destruct (atoi (mval m k_db)) eqn:Hd.
    2:{ injection H as Ho Hw. subst. split; [reflexivity|right; repeat split]. intros m' Hm. injection Hm as <-.
        intros (_ & (db & Hdb) & _). apply atoi_numeral in Hdb. unfold setting in Hdb. change (text "db") with k_db in Hdb. congruence. }
    destruct (mget m k_queue) eqn:Hq; [discriminate|]. injection H as Ho Hw. subst. cbn. split; [reflexivity|left; repeat split].
    exists m. split; [reflexivity|]. split; [intros E; change (mget m k_server = None) in E; congruence|].
    split; [eexists; apply atoi_numeral; exact Hd|exact Hq].
Qed.

Lemma sane_open : forall lib k s w o ok w', sane w -> open_storage lib k obj0 s w = (o, ok, w') -> sane w'.
Proof.
  intros lib k s w o ok w' Hw H h Hin. destruct ok.
  - destruct (open_ok _ _ _ _ _ _ H) as (Hn & _ & _ & Ho). rewrite Ho in Hin. rewrite Hn.
    apply in_app_iff in Hin as [Hin|[<-|Hin]].
    + destruct (Hw h Hin) as [H1 H2]. split; [lia|]. intros p Hp. specialize (H2 p Hp). lia.
    + cbn. split; [destruct k; lia|discriminate].
    + destruct k; cbn in Hin; try easy. destruct Hin as [<-|[]]. cbn. split; [lia|]. intros p Hp. injection Hp as <-. lia.
  - destruct (open_fails _ _ _ _ _ _ H) as (_ & [(_ & Hn & Ho & _)|(_ & Hn & Ho & _)]); rewrite Ho in Hin; rewrite Hn.
    + apply in_app_iff in Hin as [Hin|[<-|[]]].
      * destruct (Hw h Hin) as [H1 H2]. split; [lia|]. intros p Hp. specialize (H2 p Hp). lia.
      * cbn. split; [lia|discriminate].
    + exact (Hw h Hin).
Qed.

Lemma filter_sane : forall w n, sane w -> (w_next w <= n)%nat -> filter (fun x => negb (belongs n x)) (w_open w) = w_open w.
Proof.
  intros w n Hw Hn. assert (H : forall h, In h (w_open w) -> belongs n h = false).
  { intros h Hin. destruct (Hw h Hin) as [H1 H2]. unfold belongs. apply orb_false_iff. split; [apply Nat.eqb_neq; lia|].
    destruct (h_in h) as [p|]; [|reflexivity]. apply Nat.eqb_neq. specialize (H2 p eq_refl). lia. }
  induction (w_open w) as [|x l IH]; [reflexivity|]. cbn [filter]. rewrite (H x (or_introl eq_refl)). cbn [negb]. f_equal. apply IH.
  intros h Hin. apply H. right. exact Hin.
Qed.

Lemma belongs_eq : forall n q, belongs n (mkH n q) = true.
Proof. intros n q. unfold belongs. cbn [h_id]. rewrite Nat.eqb_refl. reflexivity. Qed.
Lemma belongs_in : forall n i, belongs n (mkH i (Some n)) = true.
Proof. intros n i. unfold belongs. cbn [h_in]. rewrite Nat.eqb_refl. apply orb_true_r. Qed.
Lemma belongs_ne : forall n i, n <> i -> belongs n (mkH i None) = false.
Proof. intros n i H. unfold belongs. cbn [h_id h_in]. rewrite orb_false_r. apply Nat.eqb_neq. lia. Qed.

Lemma app_neq : forall {A} (l r : list A), l ++ r = l -> r = [].
Proof. intros A l r H. apply (f_equal (@length A)) in H. rewrite app_length in H. destruct r; [reflexivity|cbn in H; lia]. Qed.

(** Close after a successful Init. *)
Lemma close_tells : forall lib cls k s w o w' r w'', sane w -> open_storage lib k obj0 s w = (o, true, w') ->
  close_storage cls k o w' = (r, w'') -> (r = ClOk <-> w_open w'' = w_open w) /\ r <> ClNil.
Proof.
  intros lib cls k s w o w' r w'' Hw Ho Hc. destruct (open_ok _ _ _ _ _ _ Ho) as (Hn & H1 & H2 & H3).
  assert (Hf : forall w1, w_open w1 = w_open w ++ [mkH (w_next w) None] -> w_open (drop (w_next w) w1) = w_open w).
  { intros w1 E. unfold drop. cbn [w_open]. rewrite E, filter_app, (filter_sane w _ Hw (le_n _)). cbn [filter].
    rewrite belongs_eq. cbn [negb]. apply app_nil_r. }
  assert (Hx : forall x l, w_open w ++ x :: l = w_open w -> False).
  { intros x l E. apply app_neq in E. discriminate. }
  assert (Hplain : forall o1 w1, o_conn o1 = Some (w_next w) -> w_open w1 = w_open w ++ [mkH (w_next w) None] ->
            forall r1 w2, plain_close cls o1 w1 = (r1, w2) -> (r1 = ClOk <-> w_open w2 = w_open w) /\ r1 <> ClNil).
  { intros o1 w1 E1 E2 r1 w2 E3. unfold plain_close, shut in E3. rewrite E1 in E3.
    destruct (cls (w_calls w1) (w_next w)).
    - apply pair_equal_spec in E3 as [<- <-]. split; [|discriminate]. rewrite (Hf w1 E2). tauto.
    - apply pair_equal_spec in E3 as [<- <-]. cbn [w_open]. rewrite E2. split; [|discriminate]. split; [discriminate|intros E; destruct (Hx _ _ E)]. }
  assert (Hsil : forall o1 w1, o_conn o1 = Some (w_next w) -> w_open w1 = w_open w ++ [mkH (w_next w) None] ->
            forall r1 w2, silent_close o1 w1 = (r1, w2) -> (r1 = ClOk <-> w_open w2 = w_open w) /\ r1 <> ClNil).
  { intros o1 w1 E1 E2 r1 w2 E3. unfold silent_close in E3. rewrite E1 in E3. apply pair_equal_spec in E3 as [<- <-].
    split; [|discriminate]. rewrite (Hf w1 E2). tauto. }
  destruct k; cbn [close_storage] in Hc; eauto.
  unfold rabbit_close, shut in Hc. rewrite H1, H2 in Hc. cbv zeta in Hc.
  destruct (cls (w_calls w') (S (w_next w))).
  2:{ apply pair_equal_spec in Hc as [<- <-]. cbn [w_open]. rewrite H3. split; [|discriminate]. split; [discriminate|intros E; destruct (Hx _ _ E)]. }
  assert (Hd : w_open (drop (S (w_next w)) w') = w_open w ++ [mkH (w_next w) None]).
  { unfold drop. cbn [w_open]. rewrite H3, filter_app, (filter_sane w _ Hw (le_S _ _ (le_n _))). cbn [filter].
    rewrite belongs_eq, (belongs_ne (S (w_next w)) (w_next w)) by lia. reflexivity. }
  destruct (cls (w_calls (drop (S (w_next w)) w')) (w_next w)); apply pair_equal_spec in Hc as [<- <-].
  - rewrite (Hf _ Hd). split; [tauto|discriminate].
  - cbn [w_open]. rewrite Hd. split; [|discriminate]. split; [discriminate|intros E; destruct (Hx _ _ E)].
Qed.

(** Close after a failed Init. *)
Lemma close_failed : forall lib cls k s w o w' r w'', sane w -> open_storage lib k obj0 s w = (o, false, w') ->
  (forall n h, cls n h = true) ->
  close_storage cls k o w' = (r, w'') ->
  w_open w'' = w_open w /\
  (r = ClNil <-> k <> KRabbit /\ forall m, s = Some m -> ~ half_open (lib (w_calls w)) (lib (S (w_calls w))) k m) /\ r <> ClErr.
Proof.
  intros lib cls k s w o w' r w'' Hw Ho Hcls Hc. destruct (open_fails _ _ _ _ _ _ Ho) as (Hch & [(H1 & Hn & H2 & m & -> & Hm)|(H1 & Hn & H2 & Hm)]).
  - assert (Hf : w_open (drop (w_next w) w') = w_open w).
    { unfold drop. cbn [w_open]. rewrite H2, filter_app, (filter_sane w _ Hw (le_n _)). cbn [filter].
      rewrite belongs_eq. cbn [negb]. apply app_nil_r. }
    assert (Hr : r = ClOk /\ w_open w'' = w_open w).
    { destruct k; cbn [close_storage] in Hc; unfold rabbit_close, plain_close, silent_close, shut in Hc; rewrite ?Hch, H1, ?Hcls in Hc;
        cbv zeta beta iota in Hc; apply pair_equal_spec in Hc as [<- <-]; auto. }
    destruct Hr as [-> Hr]. split; [exact Hr|]. split; [|discriminate]. split; [discriminate|]. intros [_ H]. destruct (H m eq_refl Hm).
  - assert (Hr : r = (match k with KRabbit => ClOk | _ => ClNil end) /\ w'' = w').
    { destruct k; cbn [close_storage] in Hc; unfold rabbit_close, plain_close, silent_close, shut in Hc; rewrite ?Hch, H1 in Hc;
        cbv zeta beta iota in Hc; apply pair_equal_spec in Hc as [<- <-]; auto. }
    destruct Hr as [-> ->]. split; [exact H2|].
    destruct k; (split; [|discriminate]); [split; [discriminate|intros [? _]; congruence]|..];
      (split; [intros _; split; [discriminate|exact Hm]|reflexivity]).
Qed.

(** *** The start of the process *)
Lemma store_kind_of_documented : forall name k, store_kind_of name = Some k <-> documented name k.
Proof. exact kind_documented. Qed.

Definition known (l : list (store_kind * obj)) (w : world) : Prop :=
  forall h, In h (w_open w) -> exists k o, In (k, o) l /\ holds o h.
Definition stops_half (lib : lib_call -> bool) (cfg : list (gostr * section)) : Prop :=
  exists pre name m post k, cfg = pre ++ (name, Some m) :: post /\
    Forall (fun e => exists c, section_opens lib e c) pre /\ documented name k /\ half_open lib lib k m.

Lemma half_open_fails : forall lib k m, half_open lib lib k m -> connector_init lib k (Some m) = None.
Proof.
  intros lib k m H. destruct (connector_init lib k (Some m)) as [c|] eqn:E; [|reflexivity]. exfalso.
  destruct (open_storage (fun _ => lib) k obj0 (Some m) world0) as [[o ok] w'] eqn:Ho.
  assert (Ha := open_agrees lib k obj0 (Some m) world0). rewrite Ho, E in Ha. cbn in Ha. subst ok.
  destruct k; cbn in H; try exact H.
  - destruct H as [H1 H2]. cbn [connector_init init_rabbit] in E. change (text "amqp://" ++ _) with (amqp_url m) in *.
    change (lib (LAmqpDial (amqp_url m)) = true) in H1. change (lib (LAmqpChannel (amqp_url m)) = false) in H2. rewrite H1, H2 in E. discriminate.
  - destruct H as [H1 H2]. cbn [connector_init init_pg] in E.
    change (lib (LPgOpen (pg_dsn m)) = true) in H1. change (lib (LPgPing (pg_dsn m)) = false) in H2. rewrite H1, H2 in E. discriminate.
  - destruct H as (_ & _ & H). cbn [connector_init init_redis] in E. change (mget m k_queue = None) in H. rewrite H in E.
    destruct (mget m k_server); [|discriminate]. cbn [negb] in E. destruct (atoi (mval m k_db)); discriminate.
Qed.

Lemma load_exactly : forall lib cfg acc w l out w', sane w -> known acc w ->
  (forall k o, In (k, o) acc -> forall h, o_conn o = Some h \/ o_chan o = Some h -> (h < w_next w)%nat) ->
  load_open (fun _ => lib) acc cfg w = (l, out, w') ->
  (known l w' <-> ~ stops_half lib cfg).
Proof.
  intros lib. induction cfg as [|[name s] cfg IH]; intros acc w l out w' Hw Hk Hlt H; cbn [load_open] in H.
  - injection H as <- <- <-. split; [|intros _; exact Hk]. intros _ (pre & n & m & post & k & E & _). destruct pre; discriminate.
  - destruct (store_kind_of name) as [k|] eqn:Ek.
    2:{ injection H as <- <- <-. split; [|intros _; exact Hk]. intros _ (pre & n & m & post & k & E & Hp & Hd & _).
        destruct pre as [|e pre].
        - injection E as <- _ _. apply store_kind_of_documented in Hd. congruence.
        - injection E as <- _. inversion Hp as [|? ? (c & k' & Hd' & _) ?]; subst. cbn in Hd'. apply store_kind_of_documented in Hd'. congruence. }
    destruct (open_storage (fun _ => lib) k obj0 s w) as [[o ok] w1] eqn:Eo.
    assert (Ha := open_agrees lib k obj0 s w). rewrite Eo in Ha. cbn [fst snd] in Ha.
    destruct ok.
    + destruct (connector_init lib k s) as [c|] eqn:Ec; [|discriminate].
      destruct (open_ok _ _ _ _ _ _ Eo) as (Hn & H1 & H2 & H3).
      assert (Hkn : known (acc ++ [(k, o)]) w1).
      { intros h Hin. rewrite H3 in Hin. apply in_app_iff in Hin as [Hin|Hin].
        - destruct (Hk h Hin) as (k' & o' & Hi & Hh). exists k', o'. split; [apply in_or_app; auto|exact Hh].
        - exists k, o. split; [apply in_or_app; right; left; reflexivity|]. destruct Hin as [<-|Hin]; [left; exact H1|].
          destruct k; cbn in Hin; try easy. destruct Hin as [<-|[]]. right. exact H2. }
      assert (Hlt1 : forall k' o', In (k', o') (acc ++ [(k, o)]) -> forall h, o_conn o' = Some h \/ o_chan o' = Some h -> (h < w_next w1)%nat).
      { intros k' o' Hin h Hh. rewrite Hn. apply in_app_iff in Hin as [Hin|[E|[]]].
        - specialize (Hlt _ _ Hin h Hh). lia.
        - injection E as <- <-. rewrite H1, H2 in Hh. destruct Hh as [Hh|Hh]; [injection Hh as <-; destruct k; lia|].
          destruct k; try discriminate. injection Hh as <-. lia. }
      rewrite (IH _ _ _ _ _ (sane_open _ _ _ _ _ _ _ Hw Eo) Hkn Hlt1 H). split; intros Hnot Hs; apply Hnot; clear Hnot.
      * destruct Hs as (pre & n & m & post & k' & E & Hp & Hd & Hh). destruct pre as [|e pre].
        -- exfalso. injection E as <- -> _. apply store_kind_of_documented in Hd. rewrite Ek in Hd. injection Hd as <-.
           apply half_open_fails in Hh. congruence.
        -- injection E as <- ->. exists pre, n, m, post, k'. inversion Hp; subst. auto.
      * destruct Hs as (pre & n & m & post & k' & -> & Hp & Hd & Hh). exists ((name, s) :: pre), n, m, post, k'.
        split; [reflexivity|]. split; [|auto]. constructor; [|exact Hp]. exists c, k. split; [apply store_kind_of_documented; exact Ek|exact Ec].
    + injection H as <- <- <-. destruct (connector_init lib k s) as [c|] eqn:Ec; [discriminate|].
      destruct (open_fails _ _ _ _ _ _ Eo) as (_ & [(H1 & Hn & H2 & m & -> & Hm)|(H1 & Hn & H2 & Hm)]).
      * split.
        -- intros Hkn _. destruct (Hkn (mkH (w_next w) None)) as (k' & o' & Hin & Hh).
           { rewrite H2. apply in_or_app. right. left. reflexivity. }
           specialize (Hlt _ _ Hin _ Hh). cbn in Hlt. lia.
        -- intros Hnot. exfalso. apply Hnot. exists [], name, m, cfg, k. split; [reflexivity|]. split; [constructor|].
           split; [apply store_kind_of_documented; exact Ek|exact Hm].
      * split; [|intros _; intros h Hin; rewrite H2 in Hin; exact (Hk h Hin)].
        intros _ (pre & n & m & post & k' & E & Hp & Hd & Hh). destruct pre as [|e pre].
        -- injection E as <- -> _. apply store_kind_of_documented in Hd. rewrite Ek in Hd. injection Hd as <-. exact (Hm m eq_refl Hh).
        -- injection E as <- _. inversion Hp as [|? ? (c & k2 & Hd2 & Hc2) ?]; subst. cbn in Hd2, Hc2.
           apply store_kind_of_documented in Hd2. rewrite Ek in Hd2. injection Hd2 as <-. congruence.
Qed.

Lemma start_exactly : forall lib cfg l out w, start_storages (fun _ => lib) cfg = (l, out, w) ->
  (known l w <-> ~ stops_half lib cfg).
Proof.
  intros lib [|e cfg] l out w H; cbn [start_storages] in H.
  - injection H as <- <- <-. split; [|intros _ h []]. intros _ (pre & n & m & post & k & E & _). destruct pre; discriminate.
  - refine (load_exactly _ _ _ _ _ _ _ _ _ _ H).
    + intros h [].
    + intros h [].
    + intros k o [].
Qed.

(** *** Histories of one connector *)
Lemma close_subset : forall cls k o w h, In h (w_open (snd (close_storage cls k o w))) -> In h (w_open w).
Proof.
  intros cls k o w h H.
  assert (Hd : forall n w0, In h (w_open (drop n w0)) -> In h (w_open w0)).
  { intros n w0 Hin. unfold drop in Hin. cbn [w_open] in Hin. apply filter_In in Hin. tauto. }
  assert (Hs : forall n w0, In h (w_open (snd (shut cls n w0))) -> In h (w_open w0)).
  { intros n w0 Hin. unfold shut in Hin. destruct (cls _ _); [exact (Hd _ _ Hin)|exact Hin]. }
  assert (Hp : forall w0, In h (w_open (snd (plain_close cls o w0))) -> In h (w_open w0)).
  { intros w0 Hin. unfold plain_close in Hin. destruct (o_conn o) as [c|]; [|exact Hin]. specialize (Hs c w0).
    destruct (shut cls c w0). exact (Hs Hin). }
  destruct k; cbn [close_storage] in H; auto.
  - unfold rabbit_close in H. cbv zeta in H.
    assert (Hc : forall w0, In h (w_open (snd (match o_conn o with
        | Some h0 => let '(ok, w1) := shut cls h0 w0 in (if ok then ClOk else ClErr, w1) | None => (ClOk, w0) end))) -> In h (w_open w0)).
    { intros w0 Hin. destruct (o_conn o) as [c|]; [|exact Hin]. specialize (Hs c w0). destruct (shut cls c w0). exact (Hs Hin). }
    destruct (o_chan o) as [c|]; [|auto]. specialize (Hs c w). destruct (shut cls c w) as [[] w1]; cbn [snd] in *; auto.
  - unfold silent_close in H. destruct (o_conn o); [exact (Hd _ _ H)|exact H].
  - unfold silent_close in H. destruct (o_conn o); [exact (Hd _ _ H)|exact H].
Qed.

(** Init keeps what was open and knows what it adds. *)
Lemma open_adds : forall lib k o s w o' ok w', open_storage lib k o s w = (o', ok, w') ->
  forall h, In h (w_open w') -> In h (w_open w) \/ holds o' h.
Proof.
  intros lib k o s w o' ok w' H h Hin. destruct s as [m|].
  2:{ destruct k; lf_unf; injection H as <- _ <-; auto. }
  assert (Hs : forall c, single_open lib c o w = (o', ok, w') -> In h (w_open w) \/ holds o' h).
  { intros c E. unfold single_open, obtain, ask, give in E. cbv beta iota zeta in E. cbn [w_calls w_next w_open] in E.
    destruct (lib _ c); injection E as <- _ <-; cbn [w_open] in Hin; [|auto].
    apply in_app_iff in Hin as [Hin|[<-|[]]]; [auto|right; left; reflexivity]. }
  destruct k; cbn [open_storage nats_open nsq_open] in H; eauto.
  - unfold rabbit_open in H. lf_unf. destruct (lib _ (LAmqpDial _)); lf_unf.
    + destruct (lib _ (LAmqpChannel _)); injection H as <- _ <-; cbn [w_open] in Hin.
      * apply in_app_iff in Hin as [Hin|[<-|[]]]; [|right; right; reflexivity].
        apply in_app_iff in Hin as [Hin|[<-|[]]]; [auto|right; left; reflexivity].
      * apply in_app_iff in Hin as [Hin|[<-|[]]]; [auto|right; left; reflexivity].
    + injection H as <- _ <-. auto.
  - unfold pg_open in H. lf_unf. destruct (lib _ (LPgOpen _)); lf_unf; injection H as <- _ <-; cbn [w_open] in Hin; [|auto].
    apply in_app_iff in Hin as [Hin|[<-|[]]]; [auto|right; left; reflexivity].
  - unfold tnt_open in H. destruct (atoi (mval m k_max_recons)); [|injection H as <- _ <-; auto].
    destruct (atoi (mval m k_timeout)); [|injection H as <- _ <-; auto]. destruct (atoi (mval m k_reconnect)); [|injection H as <- _ <-; auto]. eauto.
  - unfold redis_open in H. destruct (mget m k_server); [|injection H as <- _ <-; auto].
    destruct (atoi (mval m k_db)); [|injection H as <- _ <-; auto]. unfold give in H. injection H as <- _ <-. cbn [w_open] in Hin.
    apply in_app_iff in Hin as [Hin|[<-|[]]]; [auto|right; left; reflexivity].
Qed.

Lemma uses_snoc : forall lib cls k us u, uses lib cls k (us ++ [u]) = use_step lib cls k u (uses lib cls k us).
Proof. intros. unfold uses. rewrite fold_left_app. reflexivity. Qed.

Lemma uses_kept : forall lib cls k us,
  (forall pre s post, us = pre ++ UInit s :: post -> idle (uses lib cls k pre)) -> nothing_lost (uses lib cls k us).
Proof.
  intros lib cls k us. induction us as [|u us IH] using rev_ind; intros H.
  - intros h [].
  - assert (IHu : nothing_lost (uses lib cls k us)).
    { apply IH. intros pre s post E. apply (H pre s (post ++ [u])). rewrite E, <- app_assoc. reflexivity. }
    rewrite uses_snoc. destruct (uses lib cls k us) as [o w] eqn:Eu. destruct u as [s|]; unfold use_step; cbn [fst snd].
    + destruct (open_storage lib k o s w) as [[o' ok] w'] eqn:Eo. intros h Hin. cbn [snd fst] in *.
      destruct (open_adds _ _ _ _ _ _ _ _ Eo h Hin) as [Hold|Hh]; [|exact Hh].
      exfalso. assert (Hi := H us s [] eq_refl). rewrite Eu in Hi. exact (Hi h Hold (IHu h Hold)).
    + intros h Hin. cbn [snd fst] in *. exact (IHu h (close_subset _ _ _ _ _ Hin)).
Qed.
