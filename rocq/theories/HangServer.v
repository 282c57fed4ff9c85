(** * HangServer: with storages that always answer, Hang.v is Server.v with one
    connection. *)
From Coq Require Import Lia List.
From Verif Require Import GoBase Crc Float64 SubRecords Records Package Storage Server Hang
  Spec_Bits Spec_Wf Spec_Rec Spec_Pkg Spec_Server ServerFacts4 Spec_Hang HangFacts.
Import ListNotations.
Local Open Scope nat_scope.

Section HangServer.
Context {E : go_env}.
Variable stores : list saver.
Lemma visible_app a b : visible (a ++ b) = visible a ++ visible b.
Proof. apply flat_map_app. Qed.
Lemma visible_calls n o l : visible (map (fun k => ECall k n o) l) = map (fun k => HCalled k n) l.
Proof. induction l as [|x l IH]; [reflexivity|]. cbn. f_equal. exact IH. Qed.
Lemma handed_visible k evs : handed k (visible evs) = calls_ev k evs.
Proof.
  induction evs as [|e evs IH]; [reflexivity|]. change (e :: evs) with ([e] ++ evs).
  rewrite visible_app, handed_app, calls_ev_app, IH. f_equal. destruct e; reflexivity.
Qed.
Definition faithful_ev (evs : list event) : Prop :=
  forall pre k n o post, evs = pre ++ ECall k n o :: post ->
  exists s, nth_error stores k = Some s /\ o = s (calls_ev k pre ++ [n]).
Lemma history_own k evs : history k (map (pair 0) evs) = calls_ev k evs.
Proof. induction evs as [|e evs IH]; [reflexivity|]. cbn [map history flat_map calls_ev snd]. f_equal. exact IH. Qed.
Lemma faithful_own evs : faithful stores (map (pair 0) evs) -> faithful_ev evs.
Proof.
  intros H pre k n o post Hp. destruct (H (map (pair 0) pre) 0 k n o (map (pair 0) post)) as (s & Hs & Ho).
  - rewrite Hp, map_app. reflexivity.
  - exists s. split; [exact Hs|]. rewrite Ho, history_own. reflexivity.
Qed.
Lemma faithful_pre a b : faithful_ev (a ++ b) -> faithful_ev a.
Proof. intros H pre k n o post Hp. apply (H pre k n o (post ++ b)). rewrite Hp, <- app_assoc. reflexivity. Qed.

Lemma hsave_err ans n left h : forall a tr, a <= h < a + left ->
  (forall j, a <= j < h -> ans j (handed j tr ++ [n]) = HOk) -> ans h (handed h tr ++ [n]) = HErr ->
  hsave ans left a n tr = (tr ++ calls a (S h - a) n, false).
Proof.
  induction left as [|left IH]; intros a tr Hh H HH; [lia|]. cbn [hsave].
  rewrite handed_app. replace (handed a [HCalled a n]) with [n] by (cbn; rewrite Nat.eqb_refl; reflexivity).
  destruct (Nat.eq_dec a h) as [->|Hne].
  - rewrite HH. replace (S h - h) with 1 by lia. reflexivity.
  - rewrite H by lia. assert (Ho : forall j, a < j -> handed j (tr ++ [HCalled a n]) = handed j tr).
    { intros j Hj. rewrite handed_app. replace (handed j [HCalled a n]) with (@nil nav_record); [rewrite app_nil_r; reflexivity|].
      cbn. destruct (Nat.eqb_spec j a); [lia|reflexivity]. }
    rewrite IH; [|lia|intros j Hj; rewrite Ho by lia; apply H; lia|rewrite Ho by lia; exact HH].
    rewrite <- app_assoc. replace (S h - a) with (S (S h - S a)) by lia. reflexivity.
Qed.
Lemma asked_before evs n m j : j < m -> faithful_ev (evs ++ map (fun k => ECall k n SvOk) (seq 0 m)) ->
  answers stores j (calls_ev j evs ++ [n]) = HOk.
Proof.
  intros Hj H. destruct (H (evs ++ map (fun k => ECall k n SvOk) (seq 0 j)) j n SvOk (map (fun k => ECall k n SvOk) (seq (S j) (m - S j)))) as (s & Hs & Ho).
  - rewrite <- app_assoc. f_equal. replace m with (j + S (m - S j)) at 1 by lia. rewrite seq_app, map_app. reflexivity.
  - rewrite calls_ev_app, calls_ev_seq in Ho. unfold answers. rewrite Hs.
    destruct ((0 <=? j) && (j <? 0 + j)) eqn:B; [exfalso; apply andb_prop in B; destruct B as [_ B]; apply Nat.ltb_lt in B; lia|].
    rewrite app_nil_r in Ho. rewrite <- Ho. reflexivity.
Qed.
Lemma performs_hperform m acts evs : performs m acts evs -> faithful_ev evs ->
  hperform m (answers stores) [] acts = (visible evs, false).
Proof.
  induction 1 as [|acts evs b Hp IH|acts evs n s o Hp IH Hs]; intros Hf.
  - reflexivity.
  - rewrite hperform_app, (IH (faithful_pre _ _ Hf)). cbn [hperform]. rewrite visible_app. reflexivity.
  - rewrite hperform_app, (IH (faithful_pre _ _ Hf)). cbn [hperform]. rewrite visible_app. destruct Hs as [|k Hk].
    + rewrite app_assoc in Hf. apply faithful_pre in Hf. rewrite (hsave_all (answers stores) n m 0).
      * rewrite visible_app, visible_calls. cbn [visible flat_map]. rewrite app_nil_r. reflexivity.
      * intros j Hj. rewrite handed_visible. apply (asked_before evs n m j); [lia|exact Hf].
    + rewrite app_assoc in Hf. rewrite (hsave_err (answers stores) n m k 0); [|lia| |].
      * rewrite visible_app, visible_calls. cbn [visible flat_map app]. unfold calls.
        replace (S k - 0) with (k + 1) by lia. rewrite seq_app, map_app, <- ?app_assoc. reflexivity.
      * intros j Hj. rewrite handed_visible. apply (asked_before evs n k j); [lia|]. exact (faithful_pre _ _ Hf).
      * rewrite handed_visible. destruct (Hf (evs ++ map (fun k => ECall k n SvOk) (seq 0 k)) k n SvErr [ESaved n SvErr] eq_refl) as (st & Hst & Ho).
        rewrite calls_ev_app, calls_ev_seq in Ho.
        destruct ((0 <=? k) && (k <? 0 + k)) eqn:B; [exfalso; apply andb_prop in B; destruct B as [_ B]; apply Nat.ltb_lt in B; lia|].
        rewrite app_nil_r in Ho. unfold answers. rewrite Hst, <- Ho. reflexivity.
Qed.

(** one connection only *)
Lemma upd_len {A} i (x : A) l : length (upd i x l) = length l.
Proof. revert i. induction l as [|y l IH]; intros [|i]; cbn; [reflexivity..|]. rewrite IH. reflexivity. Qed.
Definition alone (g : global) : Prop := length (g_conns g) = 1 /\ exists evs, g_trace g = map (pair 0) evs.
Lemma gstep_alone i g : alone g -> alone (gstep stores i g).
Proof.
  intros [Hl (evs & He)]. unfold gstep. destruct (g_crashed g); [split; [exact Hl|exists evs; exact He]|].
  destruct (nth_error (g_conns g) i) as [cs|] eqn:Hn; [|split; [exact Hl|exists evs; exact He]].
  assert (i = 0) as -> by (assert (i < length (g_conns g)) by (apply nth_error_Some; congruence); lia).
  assert (Hsame : alone g) by (split; [exact Hl|exists evs; exact He]).
  destruct (cs_done cs); [exact Hsame|].
  destruct (cs_pend cs) as [|[b|n] pend].
  - destruct (conn_step (cs_in cs)); try exact Hsame; (split; [cbn [g_conns]; rewrite ?upd_len; exact Hl|exists evs; exact He]).
  - split; [cbn [g_conns]; rewrite upd_len; exact Hl|]. exists (evs ++ [EWrite b]). cbn [g_trace]. rewrite He, map_app. reflexivity.
  - destruct (nth_error stores (cs_at cs)) as [s|]; [destruct (s _)|];
      (split; [cbn [g_conns]; rewrite ?upd_len; exact Hl|]); cbn [g_trace]; rewrite He;
      [exists (evs ++ [ECall (cs_at cs) n SvOk])|exists (evs ++ [ECall (cs_at cs) n SvErr; ESaved n SvErr])
      |exists (evs ++ [ECall (cs_at cs) n SvPanic])|exists (evs ++ [ESaved n SvOk])]; rewrite map_app; reflexivity.
Qed.
Lemma grun_alone sched : forall g, alone g -> alone (grun stores sched g).
Proof. induction sched as [|i l IH]; intros g H; [exact H|]. cbn [grun fold_left]. apply IH, gstep_alone, H. Qed.

Lemma as_server c sched : in_ok c -> turns_needed (length stores) c <= turns 0 sched ->
  g_crashed (grun stores sched (ginit [c])) = false ->
  hung (length stores) (answers stores) c =
    (visible (events_of 0 (g_trace (grun stores sched (ginit [c])))), Some (snd (conn_exec c))).
Proof.
  intros Hb Ht Hc. pose proof (completion_events stores [c] sched 0 c (Forall_cons _ Hb (Forall_nil _)) eq_refl Ht Hc) as Hp.
  pose proof (grun_faithful stores [c] sched) as Hf.
  assert (Ha : alone (ginit [c])) by (split; [reflexivity|exists []; reflexivity]).
  destruct (grun_alone sched _ Ha) as [_ (evs & He)]. rewrite He in *. rewrite events_own in *.
  unfold hung. destruct (conn_exec c) as [acts f]. cbn [fst snd] in *.
  rewrite (performs_hperform _ _ _ Hp (faithful_own evs Hf)). reflexivity.
Qed.
End HangServer.
