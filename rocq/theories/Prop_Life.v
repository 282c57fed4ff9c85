(** * Prop_Life: C130 (what a failed start leaves open), C131 (Close), C132
    (Run and Stop). *)
From Coq Require Import String List Lia ZifyBool ZifyN ZifyNat.
From Verif Require Import GoBase Float64 Storage Connectors Lifecycle Listen Spec_Storage Spec_Main Spec_Life LifeFacts.

(** ** C130: a storage that cannot be opened leaves nothing open. *)

(** Not so for rabbitmq, postgresql and redis: the process starts with a
    connection open that no storage in use knows. *)
Theorem C130_failed_storage_leaves_nothing_refuted : forall k, In k [KRabbit; KPostgres; KRedis] ->
  exists lib name m, documented name k /\
    let '(l, _, w) := start_storages (fun _ => lib) [(name, Some m)] in
    l = [] /\ exists h, w_open w = [h].
Proof.
  intros k [<-|[<-|[<-|[]]]].
  - exists (fun c => match c with LAmqpDial _ => true | _ => false end), (text "rabbitmq"), [(text "host", text "mq")].
    split; [constructor|]. cbn. split; [reflexivity|eexists; reflexivity].
  - exists (fun c => match c with LPgOpen _ => true | _ => false end), (text "postgresql"), [(text "host", text "db")].
    split; [constructor|]. cbn. split; [reflexivity|eexists; reflexivity].
  - exists (fun _ => true), (text "redis"), [(text "server", text "h:6379"); (text "db", text "0")].
    split; [constructor|]. cbn. split; [reflexivity|eexists; reflexivity].
Qed.

(** Exactly: a failed opening leaves one handle when it failed half way, and
    otherwise nothing. *)
Theorem C130_left_open_exactly : forall lib k m w o w',
  open_storage lib k obj0 (Some m) w = (o, false, w') ->
  (half_open (lib (w_calls w)) (lib (S (w_calls w))) k m /\ exists h, w_open w' = w_open w ++ [h]) \/
  (~ half_open (lib (w_calls w)) (lib (S (w_calls w))) k m /\ w_open w' = w_open w).
Proof.
  intros lib k m w o w' H. destruct (open_fails _ _ _ _ _ _ H) as (_ & [(_ & _ & Ho & m' & E & Hm)|(_ & _ & Ho & Hm)]).
  - injection E as <-. left. split; [exact Hm|]. eexists. exact Ho.
  - right. split; [exact (Hm m eq_refl)|exact Ho].
Qed.

(** The whole start: every open connection belongs to a storage in use iff the
    section at which loading stops, if any, did not fail half way. *)
Theorem C130_start_exactly : forall lib cfg l out w, start_storages (fun _ => lib) cfg = (l, out, w) ->
  (forall h, In h (w_open w) -> exists k o, In (k, o) l /\ holds o h) <->
  ~ exists pre name m post k, cfg = pre ++ (name, Some m) :: post /\
      Forall (fun e => exists c, section_opens lib e c) pre /\ documented name k /\ half_open lib lib k m.
Proof. exact start_exactly. Qed.
(** The storages in use and the outcome are those of C53 and C85. *)
Theorem C130_same_storages : forall lib cfg,
  let '(l, out, _) := start_storages (fun _ => lib) cfg in
  out = snd (load_connectors lib cfg) /\ map fst l = map fst (fst (load_connectors lib cfg)).
Proof.
  assert (H : forall lib cfg acc acc' w, map fst acc = map fst acc' ->
    let '(l, out, _) := load_open (fun _ => lib) acc cfg w in
    let '(l', out') := load_loop section (fun k s => match connector_init lib k s with Some _ => true | None => false end) acc' cfg in
    out = out' /\ map fst l = map fst l').
  { intros lib. induction cfg as [|[name s] cfg IH]; intros acc acc' w Ha; cbn [load_open load_loop].
    - auto.
    - destruct (store_kind_of name) as [k|]; [|auto].
      assert (Hg := open_agrees lib k obj0 s w). destruct (open_storage (fun _ => lib) k obj0 s w) as [[o ok] w1]. cbn [fst snd] in Hg. subst ok.
      destruct (connector_init lib k s); [|auto]. apply IH. rewrite !map_app, Ha. reflexivity. }
  intros lib cfg. unfold load_connectors, load_storages, start_storages. destruct cfg as [|e cfg]; [auto|].
  specialize (H lib (e :: cfg) [] [] world0 eq_refl).
  destruct (load_open (fun _ => lib) [] (e :: cfg) world0) as [[l out] w'].
  destruct (load_loop section _ [] (e :: cfg)) as [l' out']. exact H.
Qed.
(** Two sections, the second half open: the first is in use, one handle is
    lost. *)
Example C130_example : let '(l, out, w) := start_storages (fun _ c => match c with LPgPing _ => false | _ => true end)
    [(text "nats", Some [(text "servers", text "nats://h:4222")]); (text "postgresql", Some [(text "host", text "db")])] in
  l = [(KNats, mkObj (Some 0%nat) None)] /\ out = LdInitErr /\ w_open w = [mkH 0 None; mkH 1 None].
Proof. vm_compute. auto. Qed.

(** ** C131: Close releases what Init acquired. *)

(** After a successful Init, Close succeeds exactly when everything Init opened
    is closed again and nothing else is. *)
Theorem C131_close_tells : forall lib cls k s w o w', sane w ->
  open_storage lib k obj0 s w = (o, true, w') ->
  let '(r, w'') := close_storage cls k o w' in r = ClOk <-> w_open w'' = w_open w.
Proof.
  intros lib cls k s w o w' Hw Ho. destruct (close_storage cls k o w') as [r w''] eqn:Hc.
  exact (proj1 (close_tells _ _ _ _ _ _ _ _ _ Hw Ho Hc)).
Qed.
(** After a failed one, with a library whose closes work, Close cleans up; it
    calls the library on a nil handle exactly when nothing was opened, except
    in rabbitmq. *)
Theorem C131_close_after_failure : forall lib cls k s w o w', sane w ->
  open_storage lib k obj0 s w = (o, false, w') -> (forall n h, cls n h = true) ->
  let '(r, w'') := close_storage cls k o w' in w_open w'' = w_open w /\
    (r = ClNil <-> k <> KRabbit /\ forall m, s = Some m -> ~ half_open (lib (w_calls w)) (lib (S (w_calls w))) k m).
Proof.
  intros lib cls k s w o w' Hw Ho Hcls. destruct (close_storage cls k o w') as [r w''] eqn:Hc.
  destruct (close_failed _ _ _ _ _ _ _ _ _ Hw Ho Hcls Hc) as (H1 & H2 & _). auto.
Qed.
(** Close gives up at the first error: a rabbitmq channel that does not close
    keeps the connection open although closing it would have worked. *)
Theorem C131_close_tries_everything_refuted : exists lib m o w ch h,
  open_storage lib KRabbit obj0 (Some m) world0 = (o, true, w) /\ o_chan o = Some ch /\ o_conn o = Some h /\
  let '(r, w') := close_storage (fun _ x => negb (Nat.eqb x ch)) KRabbit o w in
  r = ClErr /\ w_open w' = w_open w.
Proof.
  exists (fun _ _ => true), [(text "host", text "mq")]. do 4 eexists. split; [reflexivity|]. split; [reflexivity|]. split; [reflexivity|].
  cbn. auto.
Qed.
(** However a connector is used, as long as Init is not called while something
    it opened is still open, everything open stays within its reach. *)
Theorem C131_nothing_lost : forall lib cls k us,
  (forall pre s post, us = pre ++ UInit s :: post -> idle (uses lib cls k pre)) ->
  nothing_lost (uses lib cls k us).
Proof. exact uses_kept. Qed.
Lemma lost_for_ever : forall lib k s s' (x : handle) o w,
    (forall cls, uses lib cls k [UInit s; UInit s'] = (o, w)) ->
    In x (w_open w) -> (forall h, o_conn o = Some h \/ o_chan o = Some h -> belongs h x = false) ->
    forall cls n, ~ nothing_lost (uses lib cls k ([UInit s; UInit s'] ++ repeat UClose n)).
Proof.
    intros lib k s s' x o w Hu Hin Hb cls n.
    assert (Hk : fst (uses lib cls k ([UInit s; UInit s'] ++ repeat UClose n)) = o /\
                 In x (w_open (snd (uses lib cls k ([UInit s; UInit s'] ++ repeat UClose n))))).
    { induction n as [|n [IH1 IH2]].
      - cbn [repeat]. rewrite app_nil_r, Hu. auto.
      - replace ([UInit s; UInit s'] ++ repeat UClose (S n)) with (([UInit s; UInit s'] ++ repeat UClose n) ++ [UClose])
          by (rewrite <- app_assoc, <- repeat_cons; reflexivity).
        rewrite uses_snoc. destruct (uses _ cls k ([UInit s; UInit s'] ++ repeat UClose n)) as [o1 w1]. cbn [fst snd] in *. subst o1.
        unfold use_step. cbn [fst snd]. split; [reflexivity|].
        assert (Hd : forall h w0, o_conn o = Some h \/ o_chan o = Some h -> In x (w_open w0) -> In x (w_open (drop h w0))).
        { intros h w0 Ho Hi. unfold drop. cbn [w_open]. apply filter_In. split; [exact Hi|]. rewrite (Hb h Ho). reflexivity. }
        assert (Hs : forall h w0, o_conn o = Some h \/ o_chan o = Some h -> In x (w_open w0) -> In x (w_open (snd (shut cls h w0)))).
        { intros h w0 Ho Hi. unfold shut. destruct (cls _ _); [exact (Hd h w0 Ho Hi)|exact Hi]. }
        destruct k; cbn [close_storage]; unfold rabbit_close, plain_close, silent_close; cbv zeta.
        + assert (Hc : forall w0, In x (w_open w0) -> In x (w_open (snd (match o_conn o with
            | Some h0 => let '(ok, w1) := shut cls h0 w0 in (if ok then ClOk else ClErr, w1) | None => (ClOk, w0) end)))).
          { intros w0 Hi. destruct (o_conn o) as [h|] eqn:E; [|exact Hi]. specialize (Hs h w0 (or_introl eq_refl) Hi). destruct (shut cls h w0). exact Hs. }
          destruct (o_chan o) as [h|] eqn:E; [|auto]. specialize (Hs h w1 (or_intror eq_refl) IH2). destruct (shut cls h w1) as [[] w2]; cbn [snd] in *; auto.
        + destruct (o_conn o) as [h|] eqn:E; [|exact IH2]. specialize (Hs h w1 (or_introl eq_refl) IH2). destruct (shut cls h w1). exact Hs.
        + destruct (o_conn o) as [h|] eqn:E; [|exact IH2]. exact (Hd h w1 (or_introl eq_refl) IH2).
        + destruct (o_conn o) as [h|] eqn:E; [|exact IH2]. exact (Hd h w1 (or_introl eq_refl) IH2).
        + destruct (o_conn o) as [h|] eqn:E; [|exact IH2]. specialize (Hs h w1 (or_introl eq_refl) IH2). destruct (shut cls h w1). exact Hs.
        + destruct (o_conn o) as [h|] eqn:E; [|exact IH2]. specialize (Hs h w1 (or_introl eq_refl) IH2). destruct (shut cls h w1). exact Hs. }
    destruct Hk as [Hk1 Hk2]. intros Hl. specialize (Hl x Hk2). rewrite Hk1 in Hl.
    assert (E : belongs (h_id x) x = false) by (apply Hb; exact Hl).
    unfold belongs in E. rewrite Nat.eqb_refl in E. discriminate.
Qed.
(** Otherwise it is lost: opening twice and closing as often as one likes. *)
Theorem C131_reopened_lost : forall k, exists s, forall cls n, ~ nothing_lost (uses (fun _ _ => true) cls k ([UInit s; UInit s] ++ repeat UClose n)).
Proof.
  intros k.
  exists (Some [(text "server", text "h:1"); (text "db", text "0"); (text "queue", text "q"); (text "max_recons", text "1"); (text "timeout", text "1"); (text "reconnect", text "1")]).
  destruct k; (eapply (lost_for_ever _ _ _ _ (mkH 0 None));
    [intros cls; vm_compute; reflexivity|cbn; auto|
     intros h; cbn; intros [E|E]; try discriminate; injection E as <-; reflexivity]).
Qed.
(** Also when the second opening fails: the field is overwritten all the same,
    in most storages with nil. *)
Theorem C131_failed_reopen_lost : forall k, exists s s' lib,
  (let '(o, ok, w) := open_storage lib k obj0 s world0 in ok = true /\ snd (fst (open_storage lib k o s' w)) = false) /\
  forall cls n, ~ nothing_lost (uses lib cls k ([UInit s; UInit s'] ++ repeat UClose n)).
Proof.
  intros k.
  pose (l := [(text "server", text "h:1"); (text "db", text "0"); (text "max_recons", text "1"); (text "timeout", text "1"); (text "reconnect", text "1")]).
  exists (Some ((text "queue", text "q") :: l)), (Some l), (match k with KRabbit | KPostgres => fun n _ => Nat.ltb n 2 | _ => fun n _ => Nat.ltb n 1 end).
  unfold l. clear l. split; [destruct k; vm_compute; split; reflexivity|].
  destruct k; (eapply (lost_for_ever _ _ _ _ (mkH 0 None));
    [intros cls; vm_compute; reflexivity|cbn; auto|
     intros h; cbn; intros [E|E]; try discriminate; injection E as <-; reflexivity]).
Qed.
(** Every world reached is sane. *)
Example C131_example : sane world0 /\
  let '(o, ok, w) := open_storage (fun _ _ => true) KRabbit obj0 (Some []) world0 in
  ok = true /\ w_open w = [mkH 0 None; mkH 1 (Some 0%nat)] /\
  close_storage (fun _ _ => true) KRabbit o w = (ClOk, mkW 4 2 []).
Proof. split; [intros h []|]. cbn. auto. Qed.

(** ** C132: Run serves every connection until Stop, and Stop ends it. *)

Lemma lrun_app : forall a b, lrun (a ++ b) = fold_left lstep b (lrun a).
Proof. intros. unfold lrun. apply fold_left_app. Qed.

Lemma served_note : forall n s, served (lnote n s) = served s ++ match n with NtServe c => [c] | _ => [] end.
Proof. intros n s. unfold served, lnote. cbn [ls_notes]. rewrite flat_map_app. cbn [flat_map]. rewrite app_nil_r. reflexivity. Qed.

Lemma listening : forall ts s, ls_l s = LsOpen -> ls_pc s = RcLoop -> no_stop ts ->
  ls_l (fold_left lstep ts s) = LsOpen /\ ls_pc (fold_left lstep ts s) = RcLoop /\ served (fold_left lstep ts s) = served s ++ offered ts.
Proof.
  induction ts as [|t ts IH]; intros s Hl Hp Hn; cbn [fold_left].
  - rewrite app_nil_r. auto.
  - assert (Hn' : no_stop ts) by (intros H; apply Hn; right; exact H).
    assert (Hs : ls_l (lstep s t) = LsOpen /\ ls_pc (lstep s t) = RcLoop /\ served (lstep s t) = served s ++ offered [t]).
    { unfold lstep. rewrite Hp, Hl. destruct t as [ok|[c|]|[]]; rewrite ?served_note; cbn [offered flat_map app lnote ls_l ls_pc]; rewrite ?app_nil_r; auto.
      exfalso. apply Hn. left. reflexivity. }
    destruct Hs as (H1 & H2 & H3). destruct (IH _ H1 H2 Hn') as (E1 & E2 & E3). split; [exact E1|]. split; [exact E2|].
    rewrite E3, H3, <- app_assoc. f_equal. change (t :: ts) with ([t] ++ ts). unfold offered. rewrite flat_map_app. reflexivity.
Qed.
Lemma stopped : forall ts s, ls_l s = LsClosed -> ls_pc s = RcLoop ->
  ls_l (fold_left lstep ts s) = LsClosed /\ ls_pc (fold_left lstep ts s) = RcLoop /\ served (fold_left lstep ts s) = served s /\
  errors (fold_left lstep ts s) = (errors s + length (filter (fun t => match t with TAccept _ => true | _ => false end) ts))%nat.
Proof.
  induction ts as [|t ts IH]; intros s Hl Hp; cbn [fold_left filter].
  - rewrite Nat.add_0_r. auto.
  - assert (Hs : ls_l (lstep s t) = LsClosed /\ ls_pc (lstep s t) = RcLoop /\ served (lstep s t) = served s /\
                 errors (lstep s t) = (errors s + match t with TAccept _ => 1 | _ => 0 end)%nat).
    { unfold lstep. rewrite Hp, Hl. destruct t as [ok|c|ok]; rewrite ?served_note, ?app_nil_r; unfold errors;
        cbn [lnote ls_l ls_pc ls_notes]; rewrite ?filter_app, ?app_length; cbn [filter length]; auto. }
    destruct Hs as (H1 & H2 & H3 & H4). destruct (IH _ H1 H2) as (E1 & E2 & E3 & E4).
    split; [exact E1|]. split; [exact E2|]. split; [congruence|]. rewrite E4, H4. destruct t; cbn [length]; lia.
Qed.

(** Once it listens, the connections served are, in order, exactly those offered
    before the first Stop that closes the listener: failing accepts lose
    nothing, and after that Stop none is served. *)
Theorem C132_served_exactly : forall before after,
  no_stop before ->
  served (lrun (TListen true :: before)) = offered before /\
  served (lrun (TListen true :: before ++ TStop true :: after)) = offered before.
Proof.
  intros before after Hn. unfold lrun. cbn [fold_left]. rewrite fold_left_app. cbn [fold_left].
  set (s0 := lstep lserver0 (TListen true)).
  destruct (listening before s0 eq_refl eq_refl Hn) as (H1 & H2 & H3). split; [rewrite H3; reflexivity|].
  assert (Hs : ls_l (lstep (fold_left lstep before s0) (TStop true)) = LsClosed /\ ls_pc (lstep (fold_left lstep before s0) (TStop true)) = RcLoop /\
    served (lstep (fold_left lstep before s0) (TStop true)) = offered before).
  { unfold lstep at 1 3 5. rewrite H1, H2. rewrite served_note, app_nil_r. cbn [lnote ls_l ls_pc]. split; [reflexivity|]. split; [reflexivity|]. exact H3. }
  destruct Hs as (E1 & E2 & E3). destruct (stopped after _ E1 E2) as (_ & _ & E & _). rewrite E. exact E3.
Qed.
(** But Stop does not end Run: from then on every turn logs an error, for
    ever. *)
Theorem C132_stop_ends_run_refuted : forall before after, no_stop before ->
  let s := lrun (TListen true :: before ++ [TStop true]) in
  let s' := lrun (TListen true :: before ++ TStop true :: after) in
  ls_pc s' = RcLoop /\
  errors s' = (errors s + length (filter (fun t => match t with TAccept _ => true | _ => false end) after))%nat.
Proof.
  intros before after Hn. cbv zeta. unfold lrun. cbn [fold_left]. rewrite !fold_left_app. cbn [fold_left].
  set (s0 := lstep lserver0 (TListen true)).
  destruct (listening before s0 eq_refl eq_refl Hn) as (H1 & H2 & H3).
  assert (Hs : ls_l (lstep (fold_left lstep before s0) (TStop true)) = LsClosed /\ ls_pc (lstep (fold_left lstep before s0) (TStop true)) = RcLoop).
  { unfold lstep at 1 3. rewrite H1, H2. split; reflexivity. }
  destruct Hs as (E1 & E2). destruct (stopped after _ E1 E2) as (_ & E & _ & E4). auto.
Qed.
(** And a Stop before Run reports success and stops nothing. *)
Theorem C132_early_stop_refuted : forall n before, no_stop before ->
  let s := lrun (repeat (TStop true) n ++ TListen true :: before) in
  firstn n (answers s) = repeat true n /\ served s = offered before.
Proof.
  intros n before Hn. cbv zeta. rewrite lrun_app. cbn [fold_left].
  assert (Hr : lrun (repeat (TStop true) n) = mkLs LsNil RcStart (repeat (NtStop true) n)).
  { induction n as [|n IH]; [reflexivity|]. change (S n) with (1 + n)%nat. rewrite Nat.add_comm, !repeat_app, lrun_app, IH. reflexivity. }
  rewrite Hr. unfold lstep at 2 4. cbn [ls_pc ls_notes].
  set (s0 := mkLs LsOpen RcLoop (repeat (NtStop true) n)).
  assert (Hs0 : served s0 = []).
  { unfold served, s0. cbn [ls_notes]. clear. induction n; [reflexivity|]. exact IHn. }
  destruct (listening before s0 eq_refl eq_refl Hn) as (_ & _ & H3). rewrite H3, Hs0. split; [|reflexivity].
  assert (Ha : forall ts s, exists l, answers (fold_left lstep ts s) = answers s ++ l).
  { induction ts as [|t ts IH]; intros s; [exists []; rewrite app_nil_r; reflexivity|]. cbn [fold_left].
    destruct (IH (lstep s t)) as [l Hl]. rewrite Hl.
    assert (Hx : exists l', answers (lstep s t) = answers s ++ l').
    { destruct s as [ll pc ns]. unfold lstep, answers. cbn [ls_pc ls_l ls_notes].
      destruct pc, t as [[]|c|[]]; try (exists []; rewrite app_nil_r; reflexivity);
        destruct ll; try destruct c; cbn [lnote ls_notes]; rewrite ?flat_map_app; eexists; reflexivity. }
    destruct Hx as [l' ->]. rewrite <- app_assoc. eexists. reflexivity. }
  destruct (Ha before s0) as [l ->].
  assert (Hs1 : answers s0 = repeat true n).
  { unfold answers, s0. cbn [ls_notes]. clear. induction n; [reflexivity|]. cbn. f_equal. exact IHn. }
  rewrite Hs1, firstn_app, repeat_length, Nat.sub_diag. cbn [firstn]. rewrite app_nil_r. apply firstn_all2. rewrite repeat_length. lia.
Qed.
Example C132_example : let s := lrun [TListen true; TAccept (Some 7%nat); TAccept None; TAccept (Some 8%nat); TStop true; TAccept (Some 9%nat); TStop true] in
  served s = [7; 8]%nat /\ answers s = [true; false] /\ errors s = 2%nat /\ ls_pc s = RcLoop.
Proof. vm_compute. auto. Qed.
Print Assumptions C130_failed_storage_leaves_nothing_refuted.
Print Assumptions C130_left_open_exactly.
Print Assumptions C130_start_exactly.
Print Assumptions C130_same_storages.
Print Assumptions C131_close_tells.
Print Assumptions C131_close_after_failure.
Print Assumptions C131_close_tries_everything_refuted.
Print Assumptions C131_nothing_lost.
Print Assumptions C131_reopened_lost.
Print Assumptions C131_failed_reopen_lost.
Print Assumptions C132_served_exactly.
Print Assumptions C132_stop_ends_run_refuted.
Print Assumptions C132_early_stop_refuted.
