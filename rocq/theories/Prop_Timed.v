(** * Prop_Timed: C51 again, with the times of everything; C137 (timers), C138
    (a peer that has gone). *)
From Coq Require Import String List Lia ZifyBool ZifyN ZifyNat.
From Verif Require Import GoBase Crc Float64 SubRecords Records Package Storage Server Timed
  Spec_Storage Spec_Bits Spec_Wf Spec_Rec Spec_Pkg Spec_Server Spec_Stream Spec_Timed BaseFacts PkgFacts PkgFacts2 ServerFacts2 ServerFacts3 StreamFacts
  WitnessServer Spec_Calendar CalendarFacts TimedFacts.
Local Open Scope Z_scope.

(** A good packet, to be put into streams: a header without a body. *)
Definition small : bytes := [1; 0; 0; 11; 0; 0; 0; 5; 0; 1; 29]%N.
Lemma small_good {E : go_env} : good small.
Proof.
  apply good_std; [split; [vm_compute; reflexivity|]; split; [vm_compute; reflexivity|];
   split; [vm_compute; reflexivity|]; vm_compute; split; [discriminate|reflexivity]|vm_compute; reflexivity].
Qed.
(** Bytes that all arrive at one time. *)
Definition at_time (t : Z) (b : bytes) : list (Z * N) := map (pair t) b.
Lemma octets_at t b : octets (at_time t b) = b.
Proof. unfold octets, at_time. rewrite map_map. cbn [snd]. apply map_id. Qed.
Lemma octets_concat pks : octets (concat pks) = concat (map octets pks).
Proof. apply concat_map. Qed.

(** ** C51: idle connections *)

(** The timed handler is the handler of Server.v with times added. *)
Theorem C51_same_actions : forall (E : go_env) dur ttl t0 c,
  let o := timed_exec dur ttl t0 c in
  let r := conn_exec (mkIn [octets (ti_data c)] (ti_end c)) in
  flat_map snd (to_acts o) = fst r /\
  match to_end o with TeOpen => snd r = FinBlocked | TeClosed _ => snd r = FinClosed | TeCrashed _ => snd r = FinCrashed | TeFuel => snd r = FinFuel end.
Proof.
  intros E dur ttl t0 c o r.
  destruct (timed_run_run dur ttl (S (length (ti_data c))) 0 t0 (ti_data c) (ti_end c) (ti_at c) (mkIn [octets (ti_data c)] (ti_end c))) as [H1 H2].
  { cbn [ci_chunks concat]. apply app_nil_r. } { reflexivity. }
  assert (Hr : r = conn_run (S (length (ti_data c))) (mkIn [octets (ti_data c)] (ti_end c))).
  { unfold r, conn_exec. cbn [ci_chunks concat]. rewrite app_nil_r, octets_length. reflexivity. }
  rewrite Hr. split; [exact H1|]. rewrite <- H2. unfold o, timed_exec. destruct (to_end _); reflexivity.
Qed.
(** Exactly when a connection is closed, in every timed history of good packets
    followed by something that is not (yet) a packet.  While the peer keeps its
    side open and speaks EGTS: never, whatever ttl is. *)
Theorem C51_close_time : forall (E : go_env) dur ttl t0 c pks s, brings c pks s ->
  let free := done_at dur 0 t0 pks in
  (alien (octets s) -> to_end (timed_exec dur ttl t0 c) = TeClosed (all_there free (firstn 10 s))) /\
  (incomplete (octets s) -> ~ alien (octets s) ->
   to_end (timed_exec dur ttl t0 c) =
     match ti_end c, s with
     | COpen, _ => TeOpen
     | CEof, [] => TeClosed (Z.max (Z.max free (ti_at c)) (free + ttl))
     | _, _ => TeClosed (Z.max free (ti_at c))
     end).
Proof.
  intros E dur ttl t0 c pks s (Hd & Hg & Ht & Hbe) free.
  assert (Hbs : before_end s (ti_at c)).
  { unfold before_end in *. rewrite Hd, Forall_app in Hbe. apply Hbe. }
  destruct (timed_stream dur ttl s (ti_end c) (ti_at c) Ht Hbs pks (S (length (ti_data c))) 0 t0 Hg) as (_ & _ & _ & _ & He & _).
  { rewrite Hd. lia. }
  unfold timed_exec. rewrite Hd at 2 4. rewrite He. fold free. split.
  - intros (_ & Hl & H0). rewrite octets_length in Hl. replace (10 <=? length s)%nat with true by lia.
    replace (byte_at (octets s) 0 =? 1)%N with false by lia. reflexivity.
  - intros [Hb Hi] Hna. replace ((10 <=? length s)%nat && negb (byte_at (octets s) 0 =? 1)%N) with false.
    + destruct (ti_end c); try reflexivity; destruct s; reflexivity.
    + symmetry. apply Bool.not_true_iff_false. intros H. apply Hna. split; [exact Hb|]. rewrite octets_length. lia.
Qed.
(** Example: a packet at 5 (the handler needs 2), the end at 8, ttl 10. *)
Example C51_time_example : forall E : go_env,
  brings (mkTin (at_time 5 small) CEof 8) [at_time 5 small] [] /\
  to_end (timed_exec (fun _ => 2) 10 0 (mkTin (at_time 5 small) CEof 8)) = TeClosed 17 /\
  to_end (timed_exec (fun _ => 2) 10 0 (mkTin (at_time 5 small) COpen 8)) = TeOpen.
Proof.
  intros E.
  assert (B : forall e, brings (mkTin (at_time 5 small) e 8) [at_time 5 small] []).
  { intros e. split; [reflexivity|]. split; [constructor; [rewrite octets_at; exact small_good|constructor]|].
    split; [left; split; [reflexivity|left; cbn; lia]|]. unfold before_end. cbn [ti_data ti_at]. unfold at_time. apply Forall_map, Forall_forall. cbn. lia. }
  assert (I : incomplete (octets [])) by (split; [reflexivity|left; cbn; lia]).
  assert (N : ~ alien (octets [])) by (intros (_ & H & _); cbn in H; lia).
  split; [apply B|]. split.
  - destruct (C51_close_time E (fun _ => 2) 10 0 _ _ _ (B CEof)) as [_ H]. rewrite (H I N). reflexivity.
  - destruct (C51_close_time E (fun _ => 2) 10 0 _ _ _ (B COpen)) as [_ H]. rewrite (H I N). reflexivity.
Qed.

(** ** C137: one timer for a connection *)

(** Not so: every packet leaves a timer behind that runs for another ttl, so
    there is no bound. *)
Lemma headers_same dur t b n : (forall i, dur i = 0) -> forall i,
  headers_at dur i t (repeat (at_time t b) n) = repeat t n /\ done_at dur i t (repeat (at_time t b) n) = t.
Proof.
  intros Hd. assert (A : forall l, all_there t (at_time t l) = t).
  { unfold all_there, at_time. induction l as [|x l IH]; [reflexivity|]. cbn [map fold_right fst]. rewrite IH. lia. }
  induction n as [|n IH]; intros i; [split; reflexivity|]. cbn [repeat headers_at done_at].
  unfold at_time at 1 2 4. rewrite firstn_map. change (map (pair t) ?x) with (at_time t x). rewrite !A, Hd, Z.add_0_r.
  destruct (IH (S i)) as [-> ->]. split; reflexivity.
Qed.
Theorem C137_one_timer_refuted : forall (E : go_env) ttl n, 0 < ttl ->
  exists c pks, brings c pks [] /\ length pks = n /\ (n <= timers_at ttl 0%Z (timed_exec (fun _ => 0%Z) ttl 0%Z c))%nat.
Proof.
  intros E ttl n Httl. set (pks := repeat (at_time 0 small) n). exists (mkTin (concat pks) COpen 0), pks.
  assert (Hg : Forall (fun pk => good (octets pk)) pks).
  { apply Forall_forall. intros x Hx. apply repeat_spec in Hx. subst x. rewrite octets_at. exact small_good. }
  assert (Ht : incomplete (octets []) \/ alien (octets [])) by (left; split; [reflexivity|left; cbn; lia]).
  split; [|split; [apply repeat_length|]].
  - split; [cbn [ti_data]; symmetry; apply app_nil_r|]. split; [exact Hg|]. split; [exact Ht|].
    unfold before_end. cbn [ti_data ti_at]. apply Forall_forall. intros x Hx. apply in_concat in Hx. destruct Hx as (l & Hl & Hx).
    apply repeat_spec in Hl. subst l. unfold at_time in Hx. apply in_map_iff in Hx. destruct Hx as (y & <- & _). cbn. lia.
  - destruct (timers_count (fun _ => 0) ttl [] COpen 0 0 (fun _ => Z.le_refl 0) Ht (Forall_nil _) pks (S (length (concat pks))) 0 0 Hg) as [H _].
    { rewrite app_nil_r. lia. }
    unfold timed_exec. cbn [ti_data ti_end ti_at]. rewrite app_nil_r in H.
    destruct (headers_same (fun _ => 0) 0 small n (fun _ => eq_refl) 0) as [Hh _]. fold pks in Hh. rewrite Hh in H.
    assert (R : recent ttl 0 (repeat 0 n) = n).
    { unfold recent. clear -Httl. induction n as [|n IH]; [reflexivity|]. cbn [repeat filter]. replace ((0 <=? 0) && (0 <? 0 + ttl)) with true by lia. cbn [length]. lia. }
    lia.
Qed.
(** Exactly which timers there are. *)
Theorem C137_timers_exactly : forall (E : go_env) dur ttl t0 c pks s, brings c pks s ->
  to_timers (timed_exec dur ttl t0 c) = timers_of dur 0 t0 pks s.
Proof.
  intros E dur ttl t0 c pks s (Hd & Hg & Ht & Hbe).
  assert (Hbs : before_end s (ti_at c)) by (unfold before_end in *; rewrite Hd, Forall_app in Hbe; apply Hbe).
  unfold timed_exec. rewrite Hd at 2. apply timers_exact; try assumption. rewrite Hd. lia.
Qed.
(** Counted, up to the one that is waited on: as many as headers arrived within
    the last ttl. *)
Theorem C137_timers_partial : forall (E : go_env) dur ttl t0 c pks s t, brings c pks s -> (forall i, 0 <= dur i) ->
  (recent ttl t (headers_at dur 0 t0 pks) <= timers_at ttl t (timed_exec dur ttl t0 c) <= recent ttl t (headers_at dur 0 t0 pks) + 1)%nat.
Proof.
  intros E dur ttl t0 c pks s t (Hd & Hg & Ht & Hbe) Hdur.
  assert (Hbs : before_end s (ti_at c)) by (unfold before_end in *; rewrite Hd, Forall_app in Hbe; apply Hbe).
  destruct (timers_count dur ttl s (ti_end c) (ti_at c) t Hdur Ht Hbs pks (S (length (ti_data c))) 0 t0 Hg) as [H _]; [rewrite Hd; lia|].
  unfold timed_exec. rewrite Hd at 2 4. exact H.
Qed.
Example C137_example : recent 10 12 (headers_at (fun _ => 1) 0 0 [at_time 1 small; at_time 5 small; at_time 9 small]) = 2%nat /\
  forall E : go_env, timers_at 10 12 (timed_exec (fun _ => 1) 10 0 (mkTin (at_time 1 small ++ at_time 5 small ++ at_time 9 small) COpen 0)) = 3%nat.
Proof.
  split; [reflexivity|]. intros E. unfold timed_exec.
  assert (U : forall t, a_unit (octets (at_time t small))) by (intros t; rewrite octets_at; apply framed_unit, small_good).
  assert (P : exists acts, process (mkSlice small (room small)) = PActs acts).
  { destruct (unit_cases small (framed_unit small (proj1 small_good))) as [[Hd _]|(_ & acts & H & _)]; [|eauto].
    exfalso. apply panic_iff with (p := pkg0) in Hd; [|apply (framed_unit small (proj1 small_good))]. exact (proj2 small_good _ Hd). }
  destruct P as [acts P]. cbn [ti_data ti_end ti_at]. replace (length (at_time 1 small ++ at_time 5 small ++ at_time 9 small)) with 33%nat by reflexivity.
  rewrite timed_unit by apply U. rewrite octets_at, P. rewrite timed_unit by apply U. rewrite octets_at, P.
  rewrite <- (app_nil_r (at_time 9 small)), timed_unit by apply U. rewrite octets_at, P. reflexivity.
Qed.

(** ** C138: a peer that has gone *)

(** Not so: after a clean end the connection is kept for ttl after the last
    packet was dealt with. *)
Theorem C138_released_at_once_refuted : forall (E : go_env) dur ttl t0 c pks, brings c pks [] -> ti_end c = CEof ->
  let free := done_at dur 0 t0 pks in
  Z.max free (ti_at c) < free + ttl -> to_end (timed_exec dur ttl t0 c) = TeClosed (free + ttl).
Proof.
  intros E dur ttl t0 c pks Hb He free Hlt. destruct (C51_close_time E dur ttl t0 c pks [] Hb) as [_ H]. rewrite H, He.
  - fold free. f_equal. lia.
  - split; [reflexivity|left; cbn; lia].
  - intros (_ & X & _). cbn in X. lia.
Qed.
(** Exactly when it is released at once: the end comes inside a packet (or where
    one should begin), the connection breaks, or the last packet is ttl ago. *)
Theorem C138_released_exactly : forall (E : go_env) dur ttl t0 c pks s, brings c pks s -> ti_end c <> COpen -> ~ alien (octets s) ->
  let free := done_at dur 0 t0 pks in
  (to_end (timed_exec dur ttl t0 c) = TeClosed (Z.max free (ti_at c)) <->
   ti_end c = CErr \/ s <> [] \/ free + ttl <= Z.max free (ti_at c)).
Proof.
  intros E dur ttl t0 c pks s Hb He Hna free. destruct (C51_close_time E dur ttl t0 c pks s Hb) as [_ H].
  assert (Hi : incomplete (octets s)) by (destruct Hb as (_ & _ & [Hi|Ha] & _); [exact Hi|contradiction]).
  rewrite (H Hi Hna). fold free. clear H. destruct (ti_end c); [|split; auto|congruence].
  destruct s as [|x s].
  - split.
    + intros H. right. right. assert (Z.max (Z.max free (ti_at c)) (free + ttl) = Z.max free (ti_at c)) by congruence. lia.
    + intros [H|[H|H]]; [discriminate|congruence|]. f_equal. lia.
  - split; [|reflexivity]. intros _. right. left. discriminate.
Qed.
Example C138_example : forall E : go_env,
  brings (mkTin (at_time 5 small ++ at_time 6 (firstn 3 small)) CEof 8) [at_time 5 small] (at_time 6 (firstn 3 small)) /\
  to_end (timed_exec (fun _ => 2) 10 0 (mkTin (at_time 5 small ++ at_time 6 (firstn 3 small)) CEof 8)) = TeClosed 8.
Proof.
  intros E.
  assert (B : brings (mkTin (at_time 5 small ++ at_time 6 (firstn 3 small)) CEof 8) [at_time 5 small] (at_time 6 (firstn 3 small))).
  { split; [reflexivity|]. split; [constructor; [rewrite octets_at; exact small_good|constructor]|].
    split; [left; split; [reflexivity|left; cbn; lia]|]. unfold before_end. cbn [ti_data ti_at].
    apply Forall_app. split; unfold at_time; apply Forall_map, Forall_forall; cbn; lia. }
  split; [exact B|].
  destruct (C138_released_exactly E (fun _ => 2) 10 0 _ _ _ B) as [_ H]; [discriminate| |].
  - intros (_ & X & _). cbn in X. lia.
  - rewrite H; [reflexivity|]. right. left. discriminate.
Qed.
(** ** C139: packets are handled in order, each as soon as it is complete *)
Theorem C139_taken_up : forall (E : go_env) dur ttl t0 c pks s, brings c pks s ->
  let o := timed_exec dur ttl t0 c in
  map fst (to_acts o) = taken_at dur 0 t0 pks /\ Forall2 packet_actions (map octets pks) (map snd (to_acts o)).
Proof.
  intros E dur ttl t0 c pks s (Hd & Hg & Ht & Hbe).
  assert (Hbs : before_end s (ti_at c)) by (unfold before_end in *; rewrite Hd, Forall_app in Hbe; apply Hbe).
  unfold timed_exec. rewrite Hd at 2 4. cbv zeta. apply acts_exact; try assumption. rewrite Hd. lia.
Qed.
(** In particular what follows a packet on the connection does not delay it, and
    while the handler keeps up (it is done with every packet before the next has
    come) each is taken up the moment its last byte is there. *)
Theorem C139_no_delay : forall dur pks arr t0 i, Forall2 last_arrival pks arr ->
  (forall k a, nth_error arr k = Some a -> done_at dur i t0 (firstn k pks) <= a) ->
  taken_at dur i t0 pks = arr.
Proof.
  assert (A : forall l t a, last_arrival l a -> t <= a -> all_there t l = a).
  { intros l t a [Hi Hf] Ht. apply Z.le_antisymm.
    - clear Hi. unfold all_there. induction Hf as [|[x b] l Hx _ IH]; cbn [map fold_right fst] in *; lia.
    - clear Hf. unfold all_there. induction l as [|[x b] l IH]; cbn [map fold_right fst In] in *; [contradiction|]. destruct Hi as [->|Hi]; [lia|]. specialize (IH Hi). lia. }
  intros dur pks arr t0 i H. revert t0 i. induction H as [|pk a pks arr Ha _ IH]; intros t0 i Hk; [reflexivity|]. cbn [taken_at].
  assert (H0 := Hk O a eq_refl). cbn [firstn done_at] in H0. rewrite (A _ _ _ Ha H0). f_equal. apply IH.
  intros k b Hb. specialize (Hk (S k) b Hb). cbn [firstn done_at] in Hk. rewrite (A _ _ _ Ha H0) in Hk. exact Hk.
Qed.
Example C139_no_delay_example : Forall2 last_arrival [at_time 1 small; at_time 5 small] [1; 5] /\ forall k a, nth_error [1; 5] k = Some a -> done_at (fun _ => 3) 0 0 (firstn k [at_time 1 small; at_time 5 small]) <= a.
Proof.
  split.
  - repeat (apply Forall2_cons || apply Forall2_nil); (split; [left; reflexivity|unfold at_time; apply Forall_map, Forall_forall; cbn; lia]).
  - intros [|[|[|k]]] a H; cbn [nth_error] in H; injection H as <- || discriminate H; vm_compute; discriminate.
Qed.
Example C139_example : taken_at (fun _ => 3) 0 0 [at_time 1 small; at_time 2 small; at_time 9 small] = [1; 4; 9].
Proof. reflexivity. Qed.

(** ** C140: the received_dt of the records of a connection *)

(** It is the RFC 3339 text of the second in which the packet was taken up (see
    C139), from 2010 to 2146 on a clock that is not set back; and the texts
    of a connection, compared byte by byte, never decrease. *)
Lemma rfc_seconds t : rfc3339 t = rfc3339 (t / 1000000000 * 1000000000).
Proof. unfold rfc3339, unix_of. rewrite Z.div_mul by lia. reflexivity. Qed.
Lemma rfc_at t : 0 <= t < 4294967296000000000 -> instant_text (rfc3339 t) (Z.to_N (t / 1000000000)).
Proof.
  intros H. rewrite rfc_seconds.
  assert (Hq : 0 <= t / 1000000000 < 4294967296) by (split; [apply Z.div_pos; lia|apply Z.div_lt_upper_bound; lia]).
  assert (Hv : (Z.to_N (t / 1000000000) < 2 ^ 32)%N) by (change (2 ^ 32)%N with 4294967296%N; lia).
  assert (I := rfc_instant _ Hv). replace (t / 1000000000 * 1000000000) with (time_decode (Z.to_N (t / 1000000000))); [exact I|].
  unfold time_decode. rewrite Z2N.id by lia. reflexivity.
Qed.
Lemma taken_mono dur : (forall i, 0 <= dur i) -> forall pks i t j k a b, (j <= k)%nat ->
  nth_error (taken_at dur i t pks) j = Some a -> nth_error (taken_at dur i t pks) k = Some b -> t <= a <= b.
Proof.
  intros Hd. induction pks as [|pk pks IH]; intros i t j k a b Hjk Ha Hb; [destruct j; discriminate|]. cbn [taken_at] in *.
  assert (G := all_there_ge t pk). specialize (Hd i). destruct j as [|j], k as [|k]; cbn [nth_error] in *; try lia.
  - injection Ha as <-. injection Hb as <-. lia.
  - injection Ha as <-. specialize (IH _ _ k k b b (le_n _) Hb Hb). lia.
  - assert (Hjk' : (j <= k)%nat) by lia. specialize (IH _ _ j k a b Hjk' Ha Hb). lia.
Qed.
Theorem C140_received_times : forall (E : go_env) dur ttl t0 c pks s, brings c pks s ->
  Forall (fun t => 0 <= t < 4294967296000000000) (taken_at dur 0 t0 pks) ->
  Forall2 (fun txt t => instant_text txt (Z.to_N (t / 1000000000))) (received_dts (timed_exec dur ttl t0 c)) (taken_at dur 0 t0 pks).
Proof.
  intros E dur ttl t0 c pks s Hb Hr. destruct (C139_taken_up E dur ttl t0 c pks s Hb) as [H _].
  unfold received_dts. rewrite <- map_map, H. clear H. induction Hr as [|t l Ht _ IH]; constructor; [apply rfc_at, Ht|exact IH].
Qed.
Theorem C140_received_in_order : forall (E : go_env) dur ttl t0 c pks s j k x y, brings c pks s -> (forall i, 0 <= dur i) ->
  Forall (fun t => 0 <= t < 4294967296000000000) (taken_at dur 0 t0 pks) -> (j <= k)%nat ->
  nth_error (received_dts (timed_exec dur ttl t0 c)) j = Some x -> nth_error (received_dts (timed_exec dur ttl t0 c)) k = Some y ->
  text_lt y x = false.
Proof.
  intros E dur ttl t0 c pks s j k x y Hb Hd Hr Hjk Hx Hy. destruct (C139_taken_up E dur ttl t0 c pks s Hb) as [H _].
  unfold received_dts in Hx, Hy. rewrite <- map_map, H in Hx, Hy. rewrite nth_error_map in Hx, Hy.
  destruct (nth_error (taken_at dur 0 t0 pks) j) as [a|] eqn:Ha; [|discriminate]. destruct (nth_error (taken_at dur 0 t0 pks) k) as [b|] eqn:Hbb; [|discriminate].
  cbn [option_map] in *. injection Hx as <-. injection Hy as <-.
  destruct (taken_mono dur Hd pks 0 t0 j k a b Hjk Ha Hbb) as [_ Hab]. rewrite Forall_forall in Hr.
  assert (Ra := Hr a (nth_error_In _ _ Ha)). assert (Rb := Hr b (nth_error_In _ _ Hbb)).
  assert (Hq : a / 1000000000 <= b / 1000000000) by (apply Z.div_le_mono; lia).
  assert (Qa : 0 <= a / 1000000000) by (apply Z.div_pos; lia).
  apply Z.le_lteq in Hq. destruct Hq as [Hq|Hq].
  - apply text_lt_asym. eapply instant_lt; [apply rfc_at, Ra|apply rfc_at, Rb|lia].
  - rewrite (rfc_seconds b), <- Hq, <- (rfc_seconds a). apply text_lt_irrefl.
Qed.
Example C140_example :
  map rfc3339 (taken_at (fun _ => 0) 0 0 [at_time 351477040000000000 small; at_time 351477041999999999 small]) =
    [lit "2021-02-20T00:30:40Z"; lit "2021-02-20T00:30:41Z"].
Proof. vm_compute. reflexivity. Qed.
Print Assumptions C51_same_actions.
Print Assumptions C51_close_time.
Print Assumptions C137_one_timer_refuted.
Print Assumptions C137_timers_partial.
Print Assumptions C138_released_at_once_refuted.
Print Assumptions C138_released_exactly.
Print Assumptions C137_timers_exactly.
Print Assumptions C139_taken_up.
Print Assumptions C139_no_delay.
Print Assumptions C140_received_times.
Print Assumptions C140_received_in_order.
