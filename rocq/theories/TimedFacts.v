(** * TimedFacts: the timed handler. *)
From Coq Require Import List Lia ZifyBool ZifyN ZifyNat.
From Verif Require Import GoBase Crc Float64 SubRecords Records Package Storage Server Timed
  Spec_Bits Spec_Wf Spec_Rec Spec_Pkg Spec_Server Spec_Stream Spec_Timed BaseFacts PkgFacts PkgFacts2 ServerFacts ServerFacts2 ServerFacts3 ServerFacts4 StreamFacts GlueServer PolicyFacts.
Local Open Scope Z_scope.

Section TimedFacts.
Context {E : go_env}.

Lemma fold_all_there l : forall t, fold_left Z.max (map fst l) t = all_there t l.
Proof.
  unfold all_there. induction l as [|[x b] l IH]; intros t; [reflexivity|]. cbn [map fold_left fold_right fst]. rewrite IH.
  clear IH. induction l as [|[y c] l IH]; cbn [map fold_right fst] in *; lia.
Qed.
Lemma all_there_app l l' : forall t, all_there t (l ++ l') = all_there (all_there t l) l'.
Proof. intros t. rewrite <- !fold_all_there, map_app, fold_left_app. reflexivity. Qed.
Lemma all_there_ge t l : t <= all_there t l.
Proof. unfold all_there. induction l as [|[x b] l IH]; cbn [map fold_right fst]; lia. Qed.
Lemma all_there_le t l te : before_end l te -> all_there t l <= Z.max t te.
Proof. unfold all_there. induction 1 as [|[x b] l Hx _ IH]; cbn [map fold_right fst] in *; lia. Qed.
Lemma octets_app l l' : octets (l ++ l') = octets l ++ octets l'.
Proof. apply map_app. Qed.
Lemma octets_length l : length (octets l) = length l.
Proof. apply map_length. Qed.
Lemma octets_firstn n l : map snd (firstn n l) = firstn n (octets l).
Proof. symmetry. apply firstn_map. Qed.
Lemma octets_skipn n l : map snd (skipn n l) = skipn n (octets l).
Proof. symmetry. apply skipn_map. Qed.

(** ** Without the times it is the handler *)
Definition fin_of (t : timed_end) : conn_fin :=
  match t with TeOpen => FinBlocked | TeClosed _ => FinClosed | TeCrashed _ => FinCrashed | TeFuel => FinFuel end.
Lemma timed_run_run dur ttl : forall f i now data e te c, concat (ci_chunks c) = octets data -> ci_end c = e ->
  flat_map snd (to_acts (timed_run dur ttl f i now data e te)) = fst (conn_run f c) /\
  fin_of (to_end (timed_run dur ttl f i now data e te)) = snd (conn_run f c).
Proof.
  induction f as [|f IH]; intros i now data e te c Hc He; [split; reflexivity|]. cbn [timed_run conn_run]. unfold conn_step.
  pose proof (read_full_spec header_len c) as H1. rewrite Hc, octets_length in H1. unfold read_timed at 1 3.
  destruct (header_len <=? length data)%nat eqn:Hh.
  2:{ rewrite H1, He. destruct e; [|split; reflexivity|split; reflexivity]. destruct data; split; reflexivity. }
  destruct H1 as (rest & -> & Hrest). rewrite octets_firstn.
  destruct (negb (nth 0 (firstn header_len (octets data)) 0 =? 1)%N); [split; reflexivity|].
  set (hdr := firstn header_len (octets data)).
  pose proof (read_full_spec (N.to_nat (tail_len hdr)) (mkIn rest (ci_end c))) as H2. cbn [ci_chunks ci_end] in H2.
  rewrite Hrest, <- octets_skipn in H2. change (map snd ?x) with (octets x) in H2. rewrite octets_length in H2. unfold read_timed.
  destruct (N.to_nat (tail_len hdr) <=? length (skipn header_len data))%nat eqn:Ht.
  2:{ rewrite H2, He. destruct e; [|split; reflexivity|split; reflexivity]. destruct (skipn header_len data); split; reflexivity. }
  destruct H2 as (rest' & -> & Hrest'). rewrite octets_firstn.
  destruct (process _) as [acts| |]; [|split; reflexivity|split; reflexivity].
  cbn [tcons to_acts to_end flat_map snd].
  match goal with |- context [timed_run dur ttl f (S i) ?n ?d e te] =>
    destruct (IH (S i) n d e te (mkIn rest' (ci_end c))) as [I1 I2]; [|exact He|] end.
  { cbn [ci_chunks]. rewrite Hrest'. symmetry. apply octets_skipn. }
  destruct (conn_run f _) as [l g]. cbn [fst snd] in *. rewrite I1, I2. split; reflexivity.
Qed.

(** ** One unit *)
Lemma timed_unit dur ttl f i now pk s e te : a_unit (octets pk) ->
  timed_run dur ttl (S f) i now (pk ++ s) e te =
    let tm := mkTimer now (Some (all_there now (firstn 10 pk))) in
    match process (mkSlice (octets pk) (room (octets pk))) with
    | PActs acts => tcons tm (all_there now pk) acts (timed_run dur ttl f (S i) (all_there now pk + dur i) s e te)
    | PCrash => mkTout [tm] [] (TeCrashed (all_there now pk))
    | PFuel => mkTout [tm] [] TeFuel
    end.
Proof.
  intros (Hb & Hten & H0 & Hlen). assert (Hl : (10 <= length pk)%nat) by (rewrite octets_length in Hten; exact Hten).
  cbn [timed_run]. unfold read_timed at 1. rewrite app_length. replace (header_len <=? _)%nat with true by (unfold header_len; lia).
  assert (Hfi : firstn header_len (pk ++ s) = firstn 10 pk).
  { rewrite firstn_app. unfold header_len. replace (10 - length pk)%nat with O by lia. rewrite firstn_O, app_nil_r. reflexivity. }
  assert (Hsk : skipn header_len (pk ++ s) = skipn 10 pk ++ s).
  { rewrite skipn_app. unfold header_len. replace (10 - length pk)%nat with O by lia. rewrite skipn_O. reflexivity. }
  rewrite Hfi, Hsk, fold_all_there, octets_firstn. set (u := octets pk) in *. set (hdr := firstn 10 u). set (tl := skipn 10 u).
  assert (length hdr = 10%nat) as Hhl by (unfold hdr; rewrite firstn_length; lia).
  assert (u = hdr ++ tl) as Hsplit by (symmetry; apply firstn_skipn).
  assert (nth 0 hdr 0%N = 1%N) as Hn0.
  { unfold byte_at in H0. rewrite Hsplit in H0. rewrite nth_app_l in H0 by lia. exact H0. }
  rewrite Hn0. cbn [N.eqb Pos.eqb negb].
  assert (N.to_nat (tail_len hdr) = length (skipn 10 pk)) as Htl.
  { pose proof (tail_len_unit hdr tl Hhl) as Ht. rewrite <- Hsplit in Ht. specialize (Ht Hb).
    rewrite <- Hlen in Ht. rewrite skipn_length. unfold blen in Ht. unfold u in Ht. rewrite octets_length in Ht. lia. }
  unfold read_timed. rewrite Htl, app_length.
  replace (length (skipn 10 pk) <=? length (skipn 10 pk) + length s)%nat with true by lia.
  rewrite firstn_app, Nat.sub_diag, firstn_O, app_nil_r, firstn_all, skipn_app, Nat.sub_diag, skipn_O, skipn_all, fold_all_there.
  cbn [app]. rewrite <- all_there_app, firstn_skipn, octets_skipn. fold u. fold tl.
  assert (recv_slice hdr tl = mkSlice u (room u)) as ->; [|reflexivity].
  clearbody hdr tl u. rewrite Hsplit. unfold recv_slice, room. rewrite app_length, Hhl.
  destruct tl; cbn [length]; reflexivity.
Qed.

(** ** The end of the input *)
Lemma timed_tail dur ttl f i now s e te : incomplete (octets s) \/ alien (octets s) -> before_end s te ->
  exists tm, tm_made tm = now /\ (forall h, tm_reset tm = Some h -> h = all_there now (firstn 10 s) /\ (10 <= length s)%nat) /\
  (tm_reset tm = None -> (length s < 10)%nat) /\
  timed_run dur ttl (S f) i now s e te = mkTout [tm] []
    (if (10 <=? length s)%nat && negb (byte_at (octets s) 0 =? 1)%N then TeClosed (all_there now (firstn 10 s)) else
     match e with
     | COpen => TeOpen
     | CErr => TeClosed (Z.max now te)
     | CEof => match s with [] => TeClosed (Z.max (Z.max now te) (now + ttl)) | _ :: _ => TeClosed (Z.max now te) end
     end).
Proof.
  intros Ht Hbe. cbn [timed_run]. unfold read_timed at 1. change header_len with 10%nat.
  destruct (10 <=? length s)%nat eqn:Hl.
  2:{ exists (mkTimer now None). split; [reflexivity|]. split; [discriminate|]. split; [intros _; lia|]. cbn [andb].
      destruct e; [|reflexivity|reflexivity]. destruct s; reflexivity. }
  exists (mkTimer now (Some (all_there now (firstn 10 s)))). split; [reflexivity|].
  split; [intros h [= <-]; split; [reflexivity|lia]|]. split; [discriminate|].
  rewrite fold_all_there, octets_firstn.
  replace (nth 0 (firstn 10 (octets s)) 0%N) with (byte_at (octets s) 0).
  2:{ unfold byte_at. assert (X : (10 <= length (octets s))%nat) by (rewrite octets_length; lia). destruct (octets s) as [|x l]; [cbn in X; lia|reflexivity]. }
  destruct (byte_at (octets s) 0 =? 1)%N eqn:H0; cbn [andb negb]; [|reflexivity].
  assert (Hd : octets s = firstn 10 (octets s) ++ skipn 10 (octets s)) by (symmetry; apply firstn_skipn).
  assert (Hh : length (firstn 10 (octets s)) = 10%nat) by (rewrite firstn_length, octets_length; lia).
  assert (Hb : bytes_ok (octets s) = true) by (destruct Ht as [[H _]|[H _]]; exact H).
  assert (Htl : (N.to_nat (tail_len (firstn 10 (octets s))) <=? length (skipn 10 s))%nat = false).
  { pose proof (tail_len_unit (firstn 10 (octets s)) (skipn 10 (octets s)) Hh) as T. rewrite <- Hd in T. specialize (T Hb).
    rewrite skipn_length. destruct Ht as [[_ [K|(more & Hm & Hfr)]]|(_ & _ & K)].
    - rewrite octets_length in K. lia.
    - destruct (framed_unit _ Hfr) as (_ & _ & _ & Hul). rewrite unit_len_app in Hul by (rewrite octets_length; lia).
      rewrite <- T in Hul. unfold blen in Hul. rewrite app_length, octets_length in Hul. destruct more; [congruence|]. cbn [length] in Hul. lia.
    - lia. }
  unfold read_timed. rewrite Htl.
  assert (Hbe' : before_end (firstn 10 s) te).
  { unfold before_end in *. rewrite Forall_forall in *. intros x Hx. apply Hbe. rewrite <- (firstn_skipn 10 s). apply in_or_app. left. exact Hx. }
  assert (Hle := all_there_le now _ te Hbe'). assert (Hge := all_there_ge now (firstn 10 s)).
  replace (Z.max (all_there now (firstn 10 s)) te) with (Z.max now te) by lia.
  destruct e; [|reflexivity|reflexivity]. destruct s as [|x s]; [cbn in Hl; lia|]. destruct (skipn 10 (x :: s)); reflexivity.
Qed.

(** ** Packets, then the end *)
Lemma timed_stream dur ttl s e te : incomplete (octets s) \/ alien (octets s) -> before_end s te ->
  forall pks f i now, Forall (fun pk => good (octets pk)) pks -> (length (concat pks ++ s) < f)%nat ->
  exists tm, tm_made tm = done_at dur i now pks /\
  (forall h, tm_reset tm = Some h -> h = all_there (done_at dur i now pks) (firstn 10 s) /\ (10 <= length s)%nat) /\
  (tm_reset tm = None -> (length s < 10)%nat) /\
  to_end (timed_run dur ttl f i now (concat pks ++ s) e te) =
    (if (10 <=? length s)%nat && negb (byte_at (octets s) 0 =? 1)%N then TeClosed (all_there (done_at dur i now pks) (firstn 10 s)) else
     match e with
     | COpen => TeOpen
     | CErr => TeClosed (Z.max (done_at dur i now pks) te)
     | CEof => match s with [] => TeClosed (Z.max (Z.max (done_at dur i now pks) te) (done_at dur i now pks + ttl)) | _ :: _ => TeClosed (Z.max (done_at dur i now pks) te) end
     end) /\
  exists tms, to_timers (timed_run dur ttl f i now (concat pks ++ s) e te) = tms ++ [tm] /\
    map tm_reset tms = map Some (headers_at dur i now pks) /\
    (forall k, (k < length tms)%nat -> tm_made (nth k tms (mkTimer 0 None)) = done_at dur i now (firstn k pks)).
Proof.
  intros Ht Hbe. induction pks as [|pk pks IH]; intros f i now Hg Hf; (destruct f as [|f]; [lia|]).
  - cbn [concat app done_at]. destruct (timed_tail dur ttl f i now s e te Ht Hbe) as (tm & T1 & T2 & T3 & ->).
    exists tm. split; [exact T1|]. split; [exact T2|]. split; [exact T3|]. split; [reflexivity|]. exists []. split; [reflexivity|]. split; [reflexivity|]. cbn. lia.
  - inversion Hg as [|? ? G1 G2]; subst. assert (U := framed_unit _ (proj1 G1)).
    cbn [concat]. rewrite <- app_assoc. rewrite timed_unit by exact U.
    destruct (unit_cases _ U) as [[Hd _]|(Hnd & acts & -> & _)].
    { exfalso. apply panic_iff with (p := pkg0) in Hd; [|apply U]. exact (proj2 G1 _ Hd). }
    cbn [concat] in Hf. rewrite <- app_assoc, app_length in Hf.
    assert (L : (10 <= length pk)%nat) by (destruct U as (_ & U & _); rewrite octets_length in U; exact U).
    destruct (IH f (S i) (all_there now pk + dur i)%Z G2) as (tm & T1 & T2 & T3 & T4 & tms & T5 & T6 & T7); [lia|].
    exists tm. cbn [tcons to_end to_timers done_at headers_at]. split; [exact T1|]. split; [exact T2|]. split; [exact T3|]. split; [exact T4|].
    eexists (_ :: tms). split; [rewrite T5; reflexivity|]. split; [cbn [map tm_reset]; rewrite T6; reflexivity|].
    intros [|k] Hk; [reflexivity|]. cbn [nth firstn done_at]. apply T7. cbn [length] in Hk. lia.
Qed.

(** ** Timers *)
Lemma running_late ttl t tm : t < tm_made tm -> (forall h, tm_reset tm = Some h -> tm_made tm <= h) -> running ttl t tm = false.
Proof.
  intros Hm Hr. unfold running. destruct (tm_reset tm) as [r|].
  - specialize (Hr r eq_refl). replace (t <? r) with true by lia. replace (tm_made tm <=? t) with false by lia. reflexivity.
  - replace (tm_made tm <=? t) with false by lia. reflexivity.
Qed.
Lemma timers_count dur ttl s e te t : (forall i, 0 <= dur i) -> incomplete (octets s) \/ alien (octets s) -> before_end s te ->
  forall pks f i now, Forall (fun pk => good (octets pk)) pks -> (length (concat pks ++ s) < f)%nat ->
  let o := timed_run dur ttl f i now (concat pks ++ s) e te in
  let hs := headers_at dur i now pks in
  (recent ttl t hs <= timers_at ttl t o <= recent ttl t hs + 1)%nat /\ (t < now -> timers_at ttl t o = O /\ recent ttl t hs = O).
Proof.
  intros Hdur Ht Hbe. induction pks as [|pk pks IH]; intros f i now Hg Hf; (destruct f as [|f]; [lia|]); cbv zeta.
  - cbn [concat app headers_at]. destruct (timed_tail dur ttl f i now s e te Ht Hbe) as (tm & T1 & T2 & _ & ->).
    unfold timers_at, recent. cbn [to_timers filter]. split.
    + destruct (running ttl t tm); cbn [length]; lia.
    + intros Hlt. rewrite running_late; [split; reflexivity|lia|]. intros h Hh. apply T2 in Hh. destruct Hh as [-> _]. rewrite T1. apply all_there_ge.
  - inversion Hg as [|? ? G1 G2]; subst. assert (U := framed_unit _ (proj1 G1)).
    cbn [concat]. rewrite <- app_assoc. rewrite timed_unit by exact U.
    destruct (unit_cases _ U) as [[Hd _]|(Hnd & acts & -> & _)].
    { exfalso. apply panic_iff with (p := pkg0) in Hd; [|apply U]. exact (proj2 G1 _ Hd). }
    cbn [concat] in Hf. rewrite <- app_assoc, app_length in Hf.
    assert (L : (10 <= length pk)%nat) by (destruct U as (_ & U & _); rewrite octets_length in U; exact U).
    destruct (IH f (S i) (all_there now pk + dur i)%Z G2) as [I1 I2]; [lia|]. specialize (Hdur i).
    assert (H1 := all_there_ge now (firstn 10 pk)).
    assert (H2 : all_there now (firstn 10 pk) <= all_there now pk).
    { rewrite <- (firstn_skipn 10 pk) at 2. rewrite all_there_app. apply all_there_ge. }
    cbn [headers_at]. unfold timers_at, recent in *. cbn [tcons to_timers filter].
    set (h := all_there now (firstn 10 pk)) in *. set (hs := headers_at dur (S i) (all_there now pk + dur i) pks) in *.
    set (o := timed_run dur ttl f (S i) (all_there now pk + dur i) (concat pks ++ s) e te) in *.
    unfold running at 1 4 7. cbn [tm_reset tm_made]. destruct (Z.ltb_spec t h) as [Hlt|Hge].
    + destruct I2 as [I2 I3]; [lia|]. replace (h <=? t) with false by lia. cbn [andb]. split.
      * destruct ((now <=? t) && (t <? now + ttl)); cbn [length]; lia.
      * intros Hn. replace (now <=? t) with false by lia. cbn [andb]. split; [exact I2|exact I3].
    + replace (h <=? t) with true by lia. cbn [andb]. split; [|lia].
      destruct (t <? h + ttl); cbn [length]; lia.
Qed.

Lemma timers_exact dur ttl s e te : incomplete (octets s) \/ alien (octets s) -> before_end s te ->
  forall pks f i now, Forall (fun pk => good (octets pk)) pks -> (length (concat pks ++ s) < f)%nat ->
  to_timers (timed_run dur ttl f i now (concat pks ++ s) e te) = timers_of dur i now pks s.
Proof.
  intros Ht Hbe. induction pks as [|pk pks IH]; intros f i now Hg Hf; (destruct f as [|f]; [lia|]).
  - cbn [concat app timers_of]. destruct (timed_tail dur ttl f i now s e te Ht Hbe) as ([m r] & T1 & T2 & T3 & ->). cbn [tm_made tm_reset to_timers] in *. subst m.
    destruct r as [h|]; [destruct (T2 h eq_refl) as [-> L]; replace (10 <=? length s)%nat with true by lia; reflexivity|].
    specialize (T3 eq_refl). replace (10 <=? length s)%nat with false by lia. reflexivity.
  - inversion Hg as [|? ? G1 G2]; subst. assert (U := framed_unit _ (proj1 G1)).
    cbn [concat]. rewrite <- app_assoc. rewrite timed_unit by exact U.
    destruct (unit_cases _ U) as [[Hd _]|(Hnd & acts & -> & _)].
    { exfalso. apply panic_iff with (p := pkg0) in Hd; [|apply U]. exact (proj2 G1 _ Hd). }
    cbn [concat] in Hf. rewrite <- app_assoc, app_length in Hf.
    assert (L : (10 <= length pk)%nat) by (destruct U as (_ & U & _); rewrite octets_length in U; exact U).
    cbn [tcons to_timers timers_of]. rewrite IH; [reflexivity|exact G2|lia].
Qed.

Lemma good_done b : good b -> exists acts, packet_actions b acts /\ forall spare, process (mkSlice b spare) = PActs acts.
Proof.
  intros Hg. assert (Hc : carries (mkIn [b] COpen) [b] []).
  { split; [symmetry; apply app_nil_r|]. split; [constructor; [exact Hg|constructor]|]. left. split; [reflexivity|left; cbn; lia]. }
  destruct (carries_exec _ _ _ Hc) as (aa & HA & HE & _). destruct (carries_process _ _ _ Hc) as (bb & HB & HE').
  inversion HA as [|? x ? ? Hx HA']; subst. inversion HA'; subst. inversion HB as [|? y ? ? Hy HB']; subst. inversion HB'; subst.
  rewrite HE in HE'. cbn [concat] in HE'. rewrite !app_nil_r in HE'. subst y. exists x. split; assumption.
Qed.
Lemma acts_exact dur ttl s e te : incomplete (octets s) \/ alien (octets s) -> before_end s te ->
  forall pks f i now, Forall (fun pk => good (octets pk)) pks -> (length (concat pks ++ s) < f)%nat ->
  let o := timed_run dur ttl f i now (concat pks ++ s) e te in
  map fst (to_acts o) = taken_at dur i now pks /\ Forall2 packet_actions (map octets pks) (map snd (to_acts o)).
Proof.
  intros Ht Hbe. induction pks as [|pk pks IH]; intros f i now Hg Hf; (destruct f as [|f]; [lia|]); cbv zeta.
  - cbn [concat app taken_at]. destruct (timed_tail dur ttl f i now s e te Ht Hbe) as (tm & _ & _ & _ & ->). split; [reflexivity|constructor].
  - inversion Hg as [|? ? G1 G2]; subst. assert (U := framed_unit _ (proj1 G1)).
    cbn [concat]. rewrite <- app_assoc. rewrite timed_unit by exact U.
    destruct (good_done _ G1) as (acts & Hpa & Hp). rewrite Hp.
    cbn [concat] in Hf. rewrite <- app_assoc, app_length in Hf.
    assert (L : (10 <= length pk)%nat) by (destruct U as (_ & U & _); rewrite octets_length in U; exact U).
    destruct (IH f (S i) (all_there now pk + dur i)%Z G2) as [I1 I2]; [lia|].
    cbn [tcons to_acts taken_at map fst snd]. rewrite I1. split; [reflexivity|]. constructor; assumption.
Qed.

End TimedFacts.
