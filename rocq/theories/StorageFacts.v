(** * StorageFacts: the lemmas behind Prop_Storage. *)
From Coq Require Import String List.
From Verif Require Import GoBase Float64 Storage Spec_Storage BaseFacts.
From Coq Require Import Lia Permutation.

Lemma str_eqb_eq a b : str_eqb a b = true <-> a = b.
Proof.
  revert b. induction a as [|x a IH]; intros [|y b]; cbn; try (split; [discriminate|discriminate]); [split; reflexivity|].
  rewrite andb_true_iff, N.eqb_eq, IH. split; [intros [-> ->]; reflexivity|intros H; injection H; auto].
Qed.

Lemma kind_documented n k : store_kind_of n = Some k <-> documented n k.
Proof.
  split.
  - unfold store_kind_of.
    repeat match goal with |- context [str_eqb n ?s] =>
      let H := fresh in destruct (str_eqb n s) eqn:H; [apply str_eqb_eq in H; subst n; intros [= <-]; constructor|] end.
    discriminate.
  - intros []; reflexivity.
Qed.

Section Load.
Context {params : Type} (init : store_kind -> params -> bool).

Lemma load_loop_ok cfg : forall acc r,
  load_loop params init acc cfg = (r, LdOk) <-> exists l, r = acc ++ l /\ Forall2 (opened init) cfg l.
Proof.
  induction cfg as [|[name ps] cfg IH]; intros acc r; cbn [load_loop].
  - split; [intros [= <-]; exists []; rewrite app_nil_r; auto|].
    intros (l & -> & H). inversion H. rewrite app_nil_r. reflexivity.
  - destruct (store_kind_of name) as [k|] eqn:Hk; [destruct (init k ps) eqn:Hi|].
    + rewrite IH. split.
      * intros (l & -> & H). exists ((k, ps) :: l). rewrite <- app_assoc. split; [reflexivity|].
        constructor; [|exact H]. split; [apply kind_documented, Hk|]. split; [reflexivity|exact Hi].
      * intros (l & -> & H). inversion H as [|? [k' ps'] ? l' (H1 & H2 & H3) H4]; subst. cbn [fst snd] in *.
        apply kind_documented in H1. rewrite Hk in H1. injection H1 as <-. subst ps'.
        exists l'. rewrite <- app_assoc. auto.
    + split; [discriminate|]. intros (l & _ & H). inversion H as [|? [k' ps'] ? l' (H1 & H2 & H3) H4]; subst. cbn [fst snd] in *.
      apply kind_documented in H1. rewrite Hk in H1. injection H1 as <-. subst. congruence.
    + split; [discriminate|]. intros (l & _ & H). inversion H as [|? [k' ps'] ? l' (H1 & H2 & H3) H4]; subst. cbn [fst snd] in *.
      apply kind_documented in H1. congruence.
Qed.

Lemma loaded_iff cfg l : load_storages params init [] cfg = (l, LdOk) <-> cfg <> [] /\ Forall2 (opened init) cfg l.
Proof.
  destruct cfg as [|e cfg].
  - cbn. split; [discriminate|]. intros [H _]. congruence.
  - unfold load_storages. rewrite load_loop_ok. split.
    + intros (l' & -> & H). split; [discriminate|exact H].
    + intros [_ H]. exists l. auto.
Qed.

Lemma forall2_perm {A B} (R : A -> B -> Prop) l l' : Permutation l l' ->
  forall m, Forall2 R l m -> exists m', Forall2 R l' m' /\ Permutation m m'.
Proof.
  induction 1 as [|x l l' _ IH|x y l|l l' l'' _ IH1 _ IH2]; intros m H.
  - inversion H; subst. exists []. auto.
  - inversion H as [|? b ? m' Hx Hl]; subst. destruct (IH _ Hl) as (m2 & H2 & H3). exists (b :: m2). auto.
  - inversion H as [|? b ? m' Hx Hl]; subst. inversion Hl as [|? b' ? m2 Hy Hl']; subst.
    exists (b' :: b :: m2). split; [auto|]. constructor.
  - destruct (IH1 _ H) as (m2 & H2 & H3). destruct (IH2 _ H2) as (m3 & H4 & H5).
    exists m3. split; [exact H4|]. eapply Permutation_trans; eassumption.
Qed.
Lemma loaded_any_order cfg cfg' l : Permutation cfg cfg' -> load_storages params init [] cfg = (l, LdOk) ->
  exists l', load_storages params init [] cfg' = (l', LdOk) /\ Permutation l l'.
Proof.
  intros Hp H. apply loaded_iff in H. destruct H as [Hne H]. destruct (forall2_perm _ _ _ Hp _ H) as (l' & H1 & H2).
  exists l'. split; [|exact H2]. apply loaded_iff. split; [|exact H1]. intros ->.
  apply Permutation_sym, Permutation_nil in Hp. congruence.
Qed.

Lemma load_loop_failed cfg : forall acc r o, o <> LdOk -> load_loop params init acc cfg = (r, o) ->
  exists pre e post l, cfg = pre ++ e :: post /\ r = acc ++ l /\ Forall2 (opened init) pre l /\
    ((o = LdUnknown /\ forall k, ~ documented (fst e) k) \/
     (o = LdInitErr /\ exists k, documented (fst e) k /\ init k (snd e) = false)).
Proof.
  induction cfg as [|[name ps] cfg IH]; intros acc r o Ho H; cbn [load_loop] in H; [congruence|].
  destruct (store_kind_of name) as [k|] eqn:Hk; [destruct (init k ps) eqn:Hi|].
  - destruct (IH _ _ _ Ho H) as (pre & e & post & l & -> & -> & Hf & Hc).
    exists ((name, ps) :: pre), e, post, ((k, ps) :: l). split; [reflexivity|]. rewrite <- app_assoc.
    split; [reflexivity|]. split; [|exact Hc]. constructor; [|exact Hf].
    split; [apply kind_documented, Hk|]. split; [reflexivity|exact Hi].
  - injection H as <- <-. exists [], (name, ps), cfg, []. rewrite app_nil_r. split; [reflexivity|]. split; [reflexivity|].
    split; [constructor|]. right. split; [reflexivity|]. exists k. split; [apply kind_documented, Hk|exact Hi].
  - injection H as <- <-. exists [], (name, ps), cfg, []. rewrite app_nil_r. split; [reflexivity|]. split; [reflexivity|].
    split; [constructor|]. left. split; [reflexivity|]. intros k Hd. apply kind_documented in Hd. cbn in Hd. congruence.
Qed.
Lemma load_failed cfg l o : o <> LdOk -> load_storages params init [] cfg = (l, o) ->
  (cfg = [] /\ l = [] /\ o = LdInvalid) \/
  exists pre e post, cfg = pre ++ e :: post /\ Forall2 (opened init) pre l /\
    ((o = LdUnknown /\ forall k, ~ documented (fst e) k) \/
     (o = LdInitErr /\ exists k, documented (fst e) k /\ init k (snd e) = false)).
Proof.
  intros Ho H. destruct cfg as [|e0 cfg].
  - injection H as <- <-. left. auto.
  - right. unfold load_storages in H. destruct (load_loop_failed _ _ _ _ Ho H) as (pre & e & post & l' & H1 & -> & H2 & H3).
    exists pre, e, post. auto.
Qed.
End Load.

(** ** Repository.Save *)
Lemma save_ok m : forall stores hists, Forall2 (fun (st : saver) h => st (h ++ [m]) = SvOk) stores hists ->
  repo_save stores hists m = (map (fun h => h ++ [m]) hists, SvOk).
Proof.
  induction 1 as [|st h stores hists H _ IH]; [reflexivity|]. cbn [repo_save]. rewrite H, IH. reflexivity.
Qed.
Lemma save_fails m bad h after ha o : bad (h ++ [m]) = o -> o <> SvOk ->
  forall before hb, Forall2 (fun (st : saver) h => st (h ++ [m]) = SvOk) before hb ->
  repo_save (before ++ bad :: after) (hb ++ h :: ha) m =
    (map (fun h => h ++ [m]) hb ++ (h ++ [m]) :: ha, o).
Proof.
  intros Hb Ho before hb H. induction H as [|st h' before hb Hs _ IH].
  - cbn [app repo_save map]. rewrite Hb. destruct o; [congruence|reflexivity..].
  - cbn [app repo_save map]. rewrite Hs, IH. reflexivity.
Qed.

(** ** Connectors *)
From Verif Require Import Connectors.

Lemma digits_val_acc s : forall a, fold_left (fun a c => (10 * a + (Z.of_N c - 48))%Z) s a
  = (a * 10 ^ Z.of_nat (length s) + digits_value s)%Z.
Proof.
  induction s as [|c s IH]; intros a; cbn [fold_left digits_value length]; [cbn; lia|].
  rewrite IH, Nat2Z.inj_succ, Z.pow_succ_r by lia. ring.
Qed.
Lemma digits_val_eq s : digits_val s = digits_value s.
Proof. unfold digits_val. rewrite digits_val_acc. lia. Qed.
Lemma forallb_digits d : forallb is_digit d = true <-> Forall (fun c => (48 <= c <= 57)%N) d.
Proof.
  rewrite forallb_forall, Forall_forall. unfold is_digit. split; intros H x Hx; specialize (H x Hx).
  - apply andb_true_iff in H. rewrite !N.leb_le in H. exact H.
  - apply andb_true_iff. rewrite !N.leb_le. exact H.
Qed.
Lemma atoi_body neg d v : atoi_unsigned neg d = Some v <->
  (- 2 ^ 63 <= v < 2 ^ 63)%Z /\ d <> [] /\ Forall (fun c => (48 <= c <= 57)%N) d /\
  v = (if neg then - digits_value d else digits_value d)%Z.
Proof.
  rewrite <- forallb_digits, <- digits_val_eq. unfold atoi_unsigned. destruct d as [|c d'].
  { split; [discriminate|]. intros (_ & H & _). congruence. }
  set (d := c :: d'). destruct (forallb is_digit d); cbv zeta.
  - set (w := if neg then (- digits_val d)%Z else digits_val d).
    destruct ((- 2 ^ 63 <=? w) && (w <? 2 ^ 63))%Z eqn:Hr.
    + apply andb_true_iff in Hr. rewrite Z.leb_le, Z.ltb_lt in Hr. split.
      * intros [= <-]. repeat split; try apply Hr; discriminate.
      * intros (_ & _ & _ & ->). reflexivity.
    + split; [discriminate|]. intros (Hb & _ & _ & Hv). fold w in Hv. subst v.
      rewrite (proj2 (Z.leb_le _ _) (proj1 Hb)), (proj2 (Z.ltb_lt _ _) (proj2 Hb)) in Hr. discriminate.
  - split; [discriminate|]. intros (_ & _ & H & _). discriminate.
Qed.
Lemma atoi_numeral s z : atoi s = Some z <-> numeral s z.
Proof.
  unfold atoi, numeral. split.
  - destruct s as [|c s']; [discriminate|].
    destruct (N.eqb_spec c 43) as [->|H43]; [|destruct (N.eqb_spec c 45) as [->|H45] ];
      intros H; apply atoi_body in H; destruct H as (H1 & H2 & H3 & H4); (split; [exact H1|]).
    + exists (text "+"%string), s'. split; [auto|]. split; [reflexivity|]. split; [exact H2|]. split; [exact H3|].
      destruct (list_eq_dec _ _ _) as [He|_]; [discriminate He|exact H4].
    + exists (text "-"%string), s'. split; [auto|]. split; [reflexivity|]. split; [exact H2|]. split; [exact H3|].
      destruct (list_eq_dec _ _ _) as [_|He]; [exact H4|congruence].
    + exists [], (c :: s'). split; [auto|]. split; [reflexivity|]. split; [exact H2|]. split; [exact H3|].
      destruct (list_eq_dec _ _ _) as [He|_]; [discriminate He|exact H4].
  - intros (Hb & sign & d & Hs & -> & Hne & Hd & Hv). destruct Hs as [->|[->| -> ] ].
    + destruct (list_eq_dec _ _ _) as [He|_] in Hv; [discriminate He|]. cbn [app].
      destruct d as [|c d]; [congruence|].
      assert (c <> 43 /\ c <> 45)%N as [H43 H45] by (inversion Hd; subst; lia).
      destruct (N.eqb_spec c 43); [contradiction|]. destruct (N.eqb_spec c 45); [contradiction|].
      apply atoi_body. auto.
    + destruct (list_eq_dec _ _ _) as [He|_] in Hv; [discriminate He|]. apply (atoi_body false). auto.
    + destruct (list_eq_dec _ _ _) as [_|He] in Hv; [|congruence]. apply (atoi_body true). auto.
Qed.

Lemma destination_of lib k m c b : connector_init lib k (Some m) = Some c ->
  exists call, publish_call c b = Some call /\ destination k m b call.
Proof.
  destruct k; cbn [connector_init init_rabbit init_pg init_nats init_nsq init_tnt init_redis].
  - destruct (lib _); [|discriminate]. destruct (lib _); [|discriminate]. intros [= <-].
    eexists. split; [reflexivity|]. reflexivity.
  - destruct (lib _); [|discriminate]. destruct (lib _); [|discriminate]. intros [= <-].
    eexists. split; [reflexivity|]. reflexivity.
  - destruct (lib _); [|discriminate]. intros [= <-]. eexists. split; reflexivity.
  - destruct (lib _); [|discriminate]. intros [= <-]. eexists. split; reflexivity.
  - do 3 (destruct (atoi _); [|discriminate]). destruct (lib _); [|discriminate]. intros [= <-]. eexists. split; reflexivity.
  - destruct (mget m k_server) as [addr|] eqn:Hs; [|discriminate]. cbn [negb].
    destruct (atoi (mval m k_db)) as [db|] eqn:Hd; [|discriminate].
    destruct (mget m k_queue) as [q|] eqn:Hq; [|discriminate]. intros [= <-].
    eexists. split; [reflexivity|]. cbn [destination]. exists db. split; [apply atoi_numeral, Hd|].
    unfold setting, mval. change (text "server"%string) with k_server. change (text "queue"%string) with k_queue.
    rewrite Hs, Hq. reflexivity.
Qed.

Lemma redis_init_iff lib m c : connector_init lib KRedis (Some m) = Some c <->
  exists addr d db q, mget m (text "server"%string) = Some addr /\ mget m (text "db"%string) = Some d /\ numeral d db /\
    mget m (text "queue"%string) = Some q /\ c = CnRedis addr (setting m "password"%string) db q.
Proof.
  cbn [connector_init init_redis]. change (text "server"%string) with k_server. change (text "queue"%string) with k_queue.
  change (text "db"%string) with k_db. split.
  - destruct (mget m k_server) as [addr|] eqn:Hs; [|discriminate]. cbn [negb]. unfold mval at 1.
    destruct (mget m k_db) as [d|]; [|discriminate]. destruct (atoi d) as [db|] eqn:Hd; [|discriminate].
    destruct (mget m k_queue) as [q|] eqn:Hq; [|discriminate]. intros [= <-].
    exists addr, d, db, q. repeat split; apply atoi_numeral in Hd; apply Hd.
  - intros (addr & d & db & q & -> & Hd & Hn & -> & ->). cbn [negb]. unfold mval at 1. rewrite Hd.
    apply atoi_numeral in Hn. rewrite Hn. reflexivity.
Qed.

Lemma opened_init lib e st c k : documented (fst e) k -> connector_init lib k (snd e) = Some c ->
  opened (fun k s => match connector_init lib k s with Some _ => true | None => false end) e st ->
  connector_init lib (fst st) (snd st) = Some c.
Proof.
  intros Hd Hi (H1 & H2 & H3). apply kind_documented in Hd, H1. rewrite Hd in H1. injection H1 as <-. rewrite H2. exact Hi.
Qed.
Lemma main_all_good lib cfg : cfg <> [] ->
  Forall (fun e => exists k c, documented (fst e) k /\ connector_init lib k (snd e) = Some c) cfg ->
  (exists cs, main_connectors lib cfg = cs /\
    Forall2 (fun e c => exists k, documented (fst e) k /\ connector_init lib k (snd e) = Some c) cfg cs) /\
  forall cfg', Permutation cfg cfg' -> Permutation (main_connectors lib cfg) (main_connectors lib cfg').
Proof.
  set (P := fun e : gostr * section => exists k c, documented (fst e) k /\ connector_init lib k (snd e) = Some c).
  set (ini := fun k s => match connector_init lib k s with Some _ => true | None => false end).
  set (f := fun ks : store_kind * section => match connector_init lib (fst ks) (snd ks) with Some c => [c] | None => [] end).
  assert (forall cfg, cfg <> [] -> Forall P cfg -> exists l, load_storages section ini [] cfg = (l, LdOk) /\
    Forall2 (opened ini) cfg l /\ main_connectors lib cfg = flat_map f l) as Hload.
  { clear. intros cfg Hne H.
    assert (exists l, Forall2 (opened ini) cfg l) as (l & Hl).
    { clear Hne. induction H as [|e cfg (k & c & Hd & Hi) _ (l & IH)]; [exists []; constructor|].
      exists ((k, snd e) :: l). constructor; [|exact IH]. split; [exact Hd|]. split; [reflexivity|].
      unfold ini. cbn [fst snd]. rewrite Hi. reflexivity. }
    exists l. assert (load_storages section ini [] cfg = (l, LdOk)) as Hld by (apply loaded_iff; auto).
    split; [exact Hld|]. split; [exact Hl|].
    unfold main_connectors, load_connectors. fold ini. rewrite Hld. apply app_nil_r. }
  intros Hne H. destruct (Hload cfg Hne H) as (l & H1 & H2 & H3). split.
  - eexists. split; [reflexivity|]. rewrite H3. clear H1 H3 Hne. induction H2 as [|e st cfg l Ho Hf IH]; [constructor|].
    inversion H as [|? ? (k & c & Hd & Hi) H']; subst. cbn [flat_map]. unfold f at 1.
    rewrite (opened_init lib e st c k Hd Hi Ho). cbn [app]. constructor; [|apply IH, H'].
    exists k. auto.
  - intros cfg' Hp.
    assert (cfg' <> []) as Hne'.
    { intros ->. apply Permutation_sym, Permutation_nil in Hp. congruence. }
    assert (Forall P cfg') as H'.
    { rewrite Forall_forall in H |- *. intros x Hx. apply H. eapply Permutation_in; [apply Permutation_sym, Hp|exact Hx]. }
    destruct (Hload cfg' Hne' H') as (l' & H1' & H2' & H3'). rewrite H3, H3'.
    destruct (loaded_any_order ini cfg cfg' l Hp H1) as (l2 & H4 & H5). rewrite H1' in H4. injection H4 as <-.
    apply Permutation_flat_map, H5.
Qed.

(** ** When the order of the sections matters *)
Section Order.
Variable lib : lib_call -> bool.
Let ini := fun k (s : section) => match connector_init lib k s with Some _ => true | None => false end.
Let f := fun ks : store_kind * section => match connector_init lib (fst ks) (snd ks) with Some c => [c] | None => [] end.
Definition sec (e : gostr * section) : option conn :=
  match store_kind_of (fst e) with Some k => connector_init lib k (snd e) | None => None end.
Fixpoint runc (cfg : list (gostr * section)) : list conn :=
  match cfg with
  | [] => []
  | e :: r => match sec e with Some c => c :: runc r | None => [CnLog] end
  end.
Lemma sec_good e : (exists c, sec e = Some c) <-> exists k c, documented (fst e) k /\ connector_init lib k (snd e) = Some c.
Proof.
  unfold sec. split.
  - intros [c H]. destruct (store_kind_of (fst e)) as [k|] eqn:Hk; [|discriminate]. exists k, c. split; [apply kind_documented, Hk|exact H].
  - intros (k & c & Hd & Hi). apply kind_documented in Hd. rewrite Hd. exists c. exact Hi.
Qed.
Lemma load_loop_runc cfg : forall acc,
  (let '(l, o) := load_loop section ini acc cfg in flat_map f l ++ match o with LdOk => [] | _ => [CnLog] end) =
  flat_map f acc ++ runc cfg.
Proof.
  induction cfg as [|[n s] cfg IH]; intros acc; cbn [load_loop runc sec fst snd].
  - reflexivity.
  - unfold sec. cbn [fst snd]. destruct (store_kind_of n) as [k|]; [|reflexivity].
    unfold ini at 1. destruct (connector_init lib k s) as [c|] eqn:Hi; [|reflexivity].
    rewrite IH. rewrite flat_map_app. cbn [flat_map f fst snd]. unfold f at 2. cbn [fst snd]. rewrite Hi.
    rewrite <- app_assoc. reflexivity.
Qed.
Lemma main_runc cfg : cfg <> [] -> main_connectors lib cfg = runc cfg.
Proof.
  intros Hne. unfold main_connectors, load_connectors, load_storages. destruct cfg as [|e cfg]; [congruence|].
  exact (load_loop_runc (e :: cfg) []).
Qed.
Lemma runc_len cfg : Exists (fun e => sec e = None) cfg -> (1 <= length (runc cfg))%nat.
Proof. intros H. destruct cfg as [|e cfg]; [inversion H|]. cbn. destruct (sec e); cbn; lia. Qed.
Lemma runc_all_bad cfg : cfg <> [] -> Forall (fun e => sec e = None) cfg -> runc cfg = [CnLog].
Proof. intros Hne H. destruct H as [|e cfg He _]; [congruence|]. cbn. rewrite He. reflexivity. Qed.
Lemma order_matters cfg : cfg <> [] ->
  ((forall cfg', Permutation cfg cfg' -> Permutation (main_connectors lib cfg) (main_connectors lib cfg')) <->
   Forall (fun e => exists k c, documented (fst e) k /\ connector_init lib k (snd e) = Some c) cfg \/
   Forall (fun e => ~ exists k c, documented (fst e) k /\ connector_init lib k (snd e) = Some c) cfg).
Proof.
  intros Hne. split.
  - intros Hp.
    assert (Hdec : forall e, {sec e <> None} + {~ sec e <> None}) by (intros e; destruct (sec e); [left; discriminate|right; intros Hn; apply Hn; reflexivity]).
    destruct (Forall_Exists_dec (fun e => sec e <> None) Hdec cfg) as [Hg|Hb].
    { left. revert Hg. apply Forall_impl. intros e He. apply sec_good. destruct (sec e) as [c|]; [exists c; reflexivity|congruence]. }
    assert (Hdec' : forall e, {sec e = None} + {sec e <> None}) by (intros e; destruct (sec e); [right; discriminate|left; reflexivity]).
    destruct (Forall_Exists_dec (fun e => sec e = None) Hdec' cfg) as [Hg|Hg].
    { right. revert Hg. apply Forall_impl. intros e He Hx. apply sec_good in Hx. destruct Hx as [c Hc]. congruence. }
    exfalso.
    apply Exists_exists in Hb. destruct Hb as (b & Hbin & Hb). apply Exists_exists in Hg. destruct Hg as (g & Hgin & Hg).
    apply in_split in Hbin. destruct Hbin as (b1 & b2 & Eb). pose proof Hgin as Hgin'. apply in_split in Hgin'. destruct Hgin' as (g1 & g2 & Eg).
    assert (P1 : Permutation cfg (b :: b1 ++ b2)) by (rewrite Eb; apply Permutation_sym, Permutation_middle).
    assert (P2 : Permutation cfg (g :: g1 ++ g2)) by (rewrite Eg; apply Permutation_sym, Permutation_middle).
    pose proof (Permutation_length (Hp _ P1)) as L1. pose proof (Permutation_length (Hp _ P2)) as L2.
    assert (Hbn : sec b = None) by (destruct (sec b); [exfalso; apply Hb; discriminate|reflexivity]).
    rewrite main_runc in L1, L2 by exact Hne.
    rewrite main_runc in L1 by discriminate. rewrite main_runc in L2 by discriminate.
    cbn [runc] in L1, L2. rewrite Hbn in L1. destruct (sec g) as [c|] eqn:Hgc; [|congruence].
    cbn [length] in L1, L2.
    assert (1 <= length (runc (g1 ++ g2)))%nat; [|lia].
    apply runc_len. apply Exists_exists. exists b. split; [|exact Hbn].
    assert (In b (g :: g1 ++ g2)) as [Hbg|Hin]; [eapply Permutation_in; [exact P2|rewrite Eb; apply in_elt]|congruence|exact Hin].
  - intros [H|H] cfg' Hp; [apply main_all_good; assumption|].
    assert (Hne' : cfg' <> []) by (intros ->; apply Permutation_sym, Permutation_nil in Hp; congruence).
    assert (HF : Forall (fun e => sec e = None) cfg).
    { revert H. apply Forall_impl. intros e He. destruct (sec e) as [c|] eqn:Hs; [|reflexivity].
      exfalso. apply He, sec_good. exists c. exact Hs. }
    assert (HF' : Forall (fun e => sec e = None) cfg').
    { rewrite Forall_forall in HF |- *. intros x Hx. apply HF. eapply Permutation_in; [apply Permutation_sym, Hp|exact Hx]. }
    rewrite !main_runc, !runc_all_bad by assumption. apply Permutation_refl.
Qed.
End Order.
