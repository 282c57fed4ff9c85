(** * Prop_Replay: C128 — tools/send_egts.py replays its file. *)
From Coq Require Import String List Lia Bool ZifyBool ZifyN ZifyNat.
From Verif Require Import GoBase Float64 Records Package Storage Server Replay Spec_Server Spec_Replay Spec_Storage
  ServerFacts4 GlueServer PolicyFacts WitnessServer Vectors.
Local Open Scope N_scope.
Local Open Scope list_scope.

Lemma digit_val c x : hex_digit c x -> py_digit c = Some x.
Proof.
  intros H. unfold hex_digit, py_digit in *.
  destruct ((48 <=? c) && (c <=? 57)) eqn:E1; [f_equal; lia|].
  destruct ((97 <=? c) && (c <=? 102)) eqn:E2; [f_equal; lia|].
  destruct ((65 <=? c) && (c <=? 70)) eqn:E3; [f_equal; lia|]. lia.
Qed.
Lemma fromhex_spells s b : spells s b -> fromhex s = Some b.
Proof.
  induction 1 as [|c d x y s b Hc Hd _ IH]; [reflexivity|]. cbn [fromhex].
  assert (Hsp : py_space c = false) by (unfold py_space, hex_digit in *; lia). rewrite Hsp.
  rewrite (digit_val c x Hc), (digit_val d y Hd), IH. reflexivity.
Qed.
Lemma spells_no_lf s b : spells s b -> ~ In 10 s.
Proof.
  induction 1 as [|c d x y s b Hc Hd _ IH]; [intros []|]. unfold hex_digit in *. intros [H|[H|H]]; [lia|lia|exact (IH H)].
Qed.
Lemma spells_even s b : spells s b -> length s = (2 * length b)%nat.
Proof. induction 1 as [|c d x y s b _ _ _ IH]; [reflexivity|]. cbn [length]. lia. Qed.
Lemma read_line t rest : ~ In 10 t -> read_lines (t ++ 10 :: rest) = (t ++ [10]) :: read_lines rest.
Proof.
  induction t as [|c t IH]; intros H; [reflexivity|]. cbn [app read_lines].
  destruct (N.eqb_spec c 10) as [->|_]; [exfalso; apply H; left; reflexivity|].
  rewrite IH by (intros Hi; apply H; right; exact Hi). reflexivity.
Qed.
Lemma read_last t : ~ In 10 t -> t <> [] -> read_lines t = [t].
Proof.
  induction t as [|c t IH]; intros H Hn; [congruence|]. cbn [read_lines].
  destruct (N.eqb_spec c 10) as [->|_]; [exfalso; apply H; left; reflexivity|].
  destruct t as [|d t]; [reflexivity|]. rewrite IH; [reflexivity|intros Hi; apply H; right; exact Hi|discriminate].
Qed.
Lemma fromhex_spaced s b : spells_spaced s b -> fromhex s = Some b.
Proof.
  induction 1 as [|s b _ IH c Hc|c d x y s b Hc Hd _ IH]; [reflexivity| |].
  - cbn [fromhex]. assert (Hsp : py_space c = true) by (unfold py_space; lia). rewrite Hsp. exact IH.
  - cbn [fromhex]. assert (Hsp : py_space c = false) by (unfold py_space, hex_digit in *; lia).
    rewrite Hsp, (digit_val c x Hc), (digit_val d y Hd), IH. reflexivity.
Qed.
Lemma spaced_no_lf s b : spells_spaced s b -> ~ In 10 s.
Proof.
  induction 1 as [|s b _ IH c Hc|c d x y s b Hc Hd _ IH]; [intros []| |]; unfold hex_digit in *.
  - intros [H|H]; [lia|exact (IH H)].
  - intros [H|[H|H]]; [lia|lia|exact (IH H)].
Qed.
Lemma read_texts texts : Forall (fun t => ~ In 10 t) texts ->
  read_lines (concat (map (fun t => t ++ [10]) texts)) = map (fun t => t ++ [10]) texts.
Proof.
  induction 1 as [|t texts Ht _ IH]; [reflexivity|]. cbn [map concat]. rewrite <- app_assoc. cbn [app].
  rewrite read_line by exact Ht. rewrite IH. reflexivity.
Qed.
Lemma read_file texts pkts : Forall2 spells texts pkts -> forall rest,
  read_lines (concat (map (fun t => t ++ [10]) texts) ++ rest) = map (fun t => t ++ [10]) texts ++ read_lines rest.
Proof.
  induction 1 as [|t p texts pkts Ht _ IH]; intros rest; [reflexivity|]. cbn [map concat app]. rewrite <- !app_assoc. cbn [app].
  rewrite read_line by exact (spells_no_lf _ _ Ht). rewrite IH. reflexivity.
Qed.

Section Receiver.
Context {E : go_env}.

Lemma carries_all pkts : Forall good pkts -> carries (mkIn pkts COpen) pkts [].
Proof.
  intros H. split; [cbn [ci_chunks]; rewrite app_nil_r; reflexivity|]. split; [exact H|]. left. split; [reflexivity|]. left. cbn. lia.
Qed.
Definition output (acts : list action) : bytes := concat (flat_map (fun a => match a with AWrite b => [b] | ASave _ => [] end) acts).
Lemma output_app a b : output (a ++ b) = output a ++ output b.
Proof. unfold output. rewrite flat_map_app, concat_app. reflexivity. Qed.

Lemma good_process b : good b -> exists acts, packet_actions b acts /\ forall spare, process (mkSlice b spare) = PActs acts.
Proof.
  intros Hg. assert (Hc : carries (mkIn [b] COpen) [b] []) by (apply carries_all; constructor; [exact Hg|constructor]).
  destruct (carries_exec _ _ _ Hc) as (aa & HA & HE & _). destruct (carries_process _ _ _ Hc) as (bb & HB & HE').
  inversion HA as [|? x ? ? Hx HA']; subst. inversion HA'; subst. inversion HB as [|? y ? ? Hy HB']; subst. inversion HB'; subst.
  rewrite HE in HE'. cbn [concat] in HE'. rewrite !app_nil_r in HE'. subst y. exists x. split; assumption.
Qed.
Lemma answers_next ps b acts : Forall good ps -> good b -> (forall spare, process (mkSlice b spare) = PActs acts) ->
  receiver_answers (ps ++ [b]) = receiver_answers ps ++ output acts.
Proof.
  intros Hps Hb Hp. unfold receiver_answers. fold (output (fst (conn_exec (mkIn (ps ++ [b]) COpen)))). fold (output (fst (conn_exec (mkIn ps COpen)))).
  assert (H1 : carries (mkIn (ps ++ [b]) COpen) (ps ++ [b]) []) by (apply carries_all, Forall_app; split; [exact Hps|constructor; [exact Hb|constructor]]).
  destruct (carries_process _ _ _ H1) as (aa & HA & ->). destruct (carries_process _ _ _ (carries_all ps Hps)) as (bb & HB & ->).
  apply Forall2_app_inv_l in HA as (a1 & a2 & HA1 & HA2 & ->). inversion HA2 as [|? y ? ? Hy HA3]; subst. inversion HA3; subst.
  specialize (Hy []). rewrite (Hp []) in Hy. injection Hy as <-.
  assert (a1 = bb) as ->.
  { clear - HA1 HB. revert bb HB. induction HA1 as [|x a ps aa Hx _ IH]; intros bb HB; inversion HB as [|? z ? ? Hz HB']; subst; [reflexivity|].
    specialize (Hx []). specialize (Hz []). rewrite Hx in Hz. injection Hz as <-. f_equal. apply IH. assumption. }
  rewrite concat_app, output_app. cbn [concat]. rewrite app_nil_r. reflexivity.
Qed.
Lemma reply_not_empty b acts : good b -> calls_for_reply b -> packet_actions b acts -> (0 < length (output acts))%nat.
Proof.
  intros Hg Hr (p & code & err & Hd & Hid & He & Ha).
  assert (Hlen : forall ack pid code svc nums, is_ack ack pid code svc nums -> (0 < length ack)%nat).
  { intros ack pid c svc nums (_ & H & _). unfold blen in H. lia. }
  destruct err.
  - destruct (He eq_refl) as (_ & ack & -> & Hack). unfold output. cbn [flat_map concat app]. rewrite app_nil_r. eapply Hlen; exact Hack.
  - destruct (Ha eq_refl) as (-> & HH). destruct (Hr p Hd) as (l & Hl & Hc).
    destruct HH as [(_ & _ & r & Hr')|(_ & l' & Hl' & Happ)]; [congruence|].
    assert (l' = l) as -> by congruence. unfold app_actions in Happ. rewrite Hc in Happ. destruct Happ as (rec & ack & -> & Happ).
    rewrite !output_app, !app_length. unfold output at 2. cbn [flat_map concat app]. rewrite app_nil_r.
    enough ((0 < length ack)%nat) by lia.
    destruct Happ as (_ & _ & _ & _ & _ & _ & _ & _ & _ & svc & Hack & _).
    eapply Hlen. exact Hack.
Qed.
End Receiver.

Section Tool.
Context {E : go_env}.
Lemma tool_all texts pkts : Forall2 (fun t p => fromhex t = Some p) texts pkts -> Forall good pkts -> Forall calls_for_reply pkts ->
  forall sent n, Forall good sent -> (n <= length (receiver_answers sent))%nat ->
  (forall sent' e, tool receiver_answers (map (fun t => t ++ [10]) texts) sent n sent' e -> sent' = sent ++ pkts /\ e = TFinished) /\
  exists sent' e, tool receiver_answers (map (fun t => t ++ [10]) texts) sent n sent' e.
Proof.
  induction 1 as [|t p texts pkts Ht _ IH]; intros Hg Hr sent n Hs Hn; cbn [map].
  - split; [|exists sent, TFinished; constructor]. intros sent' e H. inversion H; subst. rewrite app_nil_r. split; reflexivity.
  - apply Forall_cons_iff in Hg as [Hg1 Hg]. apply Forall_cons_iff in Hr as [Hr1 Hr].
    destruct (good_process p Hg1) as (acts & Ha & Hp). pose proof (answers_next sent p acts Hs Hg1 Hp) as Hnext.
    pose proof (reply_not_empty p acts Hg1 Hr1 Ha) as Hne.
    assert (Hl : length (receiver_answers (sent ++ [p])) = (length (receiver_answers sent) + length (output acts))%nat) by (rewrite Hnext, app_length; reflexivity).
    assert (Hf : fromhex (removelast (t ++ [10])) = Some p) by (rewrite removelast_last; exact Ht).
    assert (Hs' : Forall good (sent ++ [p])) by (apply Forall_app; split; [exact Hs|constructor; [exact Hg1|constructor]]).
    assert (Eapp : sent ++ p :: pkts = (sent ++ [p]) ++ pkts) by (rewrite <- app_assoc; reflexivity).
    split.
    + intros sent' e H. inversion H as [|? ? ? ? Hb|? ? ? ? p' k ? ? Hb Hk Hk2 Hrest|? ? ? ? p' Hb Hw]; subst.
      * congruence.
      * assert (p' = p) as -> by congruence. rewrite Eapp. apply (proj1 (IH Hg Hr (sent ++ [p]) (n + k)%nat Hs' Hk2)). exact Hrest.
      * assert (p' = p) as -> by congruence. lia.
    + assert (Hk2 : (n + 1 <= length (receiver_answers (sent ++ [p])))%nat) by lia.
      destruct (proj2 (IH Hg Hr (sent ++ [p]) (n + 1)%nat Hs' Hk2)) as (sent' & e & H).
      exists sent', e. apply (tool_next _ _ _ _ _ _ 1%nat _ _ Hf); [lia|exact Hk2|exact H].
Qed.
End Tool.

(** ** C128: the script sends every packet of its file, in order, and ends.
    Refuted: the last packet of a file that does not end with a line feed is
    never sent, and a response in the file makes the script wait for ever. *)
Theorem C128_file_replayed_refuted : forall E : go_env,
  (forall texts pkts t p, Forall2 spells texts pkts -> Forall good pkts -> Forall calls_for_reply pkts -> spells t p -> good p ->
     let file := concat (map (fun t => t ++ [10]) texts) ++ t in
     (exists sent e, replays file sent e) /\ forall sent e, replays file sent e -> sent = pkts /\ e = TFailed) /\
  (forall t p rest, spells t p -> good p -> (exists q, decodes_to p q /\ pPT q = 0) ->
     let file := t ++ 10 :: rest in
     forall sent e, replays file sent e <-> sent = [p] /\ e = TWaiting).
Proof.
  intros E. split.
  - intros texts pkts t p Ht Hg Hr Hsp Hgp file.
    assert (Hne : t <> []).
    { intros ->. inversion Hsp; subst. destruct Hgp as [Hf _]. unfold framed in Hf. cbn in Hf. lia. }
    assert (Hlines : read_lines file = map (fun t => t ++ [10]) texts ++ [t]).
    { unfold file. rewrite (read_file texts pkts Ht), (read_last t (spells_no_lf _ _ Hsp) Hne). reflexivity. }
    assert (Hbad : fromhex (removelast t) = None).
    { clear - Hsp Hne. induction Hsp as [|c d x y s b Hc Hd Hs IH]; [congruence|].
      assert (Hspc : py_space c = false) by (unfold py_space, hex_digit in *; lia).
      destruct s as [|c' s']; [cbn; rewrite Hspc; reflexivity|].
      change (removelast (c :: d :: c' :: s')) with (c :: d :: removelast (c' :: s')). cbn [fromhex]. rewrite Hspc.
      rewrite IH by discriminate. destruct (py_digit c); [|reflexivity]. destruct (py_digit d); reflexivity. }
    unfold replays. rewrite Hlines. clear Hlines file.
    enough (G : forall sent n, Forall good sent -> (n <= length (receiver_answers sent))%nat ->
      (exists s e, tool receiver_answers (map (fun t => t ++ [10]) texts ++ [t]) sent n s e) /\
      forall s e, tool receiver_answers (map (fun t => t ++ [10]) texts ++ [t]) sent n s e -> s = sent ++ pkts /\ e = TFailed).
    { destruct (G [] 0%nat (Forall_nil _) (Nat.le_0_l _)) as [G1 G2]. split; [exact G1|exact G2]. }
    clear Hne Hgp Hsp p. revert Hg Hr. induction Ht as [|t0 p0 texts pkts Ht0 _ IH]; intros Hg Hr sent n Hs Hn; cbn [map app].
    + split; [exists sent, TFailed; constructor; exact Hbad|]. intros s e H. inversion H; subst; try congruence. rewrite app_nil_r. split; reflexivity.
    + apply Forall_cons_iff in Hg as [Hg1 Hg]. apply Forall_cons_iff in Hr as [Hr1 Hr].
      destruct (good_process p0 Hg1) as (acts & Ha & Hp). pose proof (answers_next sent p0 acts Hs Hg1 Hp) as Hnext.
      pose proof (reply_not_empty p0 acts Hg1 Hr1 Ha) as Hnem.
      assert (Hl : length (receiver_answers (sent ++ [p0])) = (length (receiver_answers sent) + length (output acts))%nat) by (rewrite Hnext, app_length; reflexivity).
      assert (Hf : fromhex (removelast (t0 ++ [10])) = Some p0) by (rewrite removelast_last; apply fromhex_spells; exact Ht0).
      assert (Hs' : Forall good (sent ++ [p0])) by (apply Forall_app; split; [exact Hs|constructor; [exact Hg1|constructor]]).
      assert (Eapp : sent ++ p0 :: pkts = (sent ++ [p0]) ++ pkts) by (rewrite <- app_assoc; reflexivity).
      split.
      * assert (Hk2 : (n + 1 <= length (receiver_answers (sent ++ [p0])))%nat) by lia.
        destruct (proj1 (IH Hg Hr (sent ++ [p0]) (n + 1)%nat Hs' Hk2)) as (s & e & H).
        exists s, e. apply (tool_next _ _ _ _ _ _ 1%nat _ _ Hf); [lia|exact Hk2|exact H].
      * intros s e H. inversion H as [|? ? ? ? Hb|? ? ? ? p' k ? ? Hb Hk Hk2 Hrest|? ? ? ? p' Hb Hw]; subst.
        -- congruence.
        -- assert (p' = p0) as -> by congruence. rewrite Eapp. apply (proj2 (IH Hg Hr (sent ++ [p0]) (n + k)%nat Hs' Hk2)). exact Hrest.
        -- assert (p' = p0) as -> by congruence. lia.
  - intros t p rest Hsp Hg (q & Hq & Hpt) file sent e.
    assert (Hlines : read_lines file = (t ++ [10]) :: read_lines rest) by (apply read_line, (spells_no_lf _ _ Hsp)).
    assert (Hf : fromhex (removelast (t ++ [10])) = Some p) by (rewrite removelast_last; apply fromhex_spells; exact Hsp).
    assert (H0 : receiver_answers ([] ++ [p]) = []).
    { destruct (good_process p Hg) as (acts & (p2 & code & err & Hd & _ & He & Ha) & Hp).
      rewrite (answers_next [] p acts (Forall_nil _) Hg Hp).
      pose proof (Hd []) as Hd0. rewrite (Hq []) in Hd0. assert (err = false) as -> by congruence. assert (p2 = q) as -> by congruence.
      destruct (Ha eq_refl) as (_ & [(_ & -> & _)|(Hbad & _)]); [reflexivity|congruence]. }
    unfold replays. rewrite Hlines. split.
    + intros H. inversion H as [|? ? ? ? Hb|? ? ? ? p' k ? ? Hb Hk Hk2 Hrest|? ? ? ? p' Hb Hw]; subst.
      * congruence.
      * assert (p' = p) as -> by congruence. rewrite H0 in Hk2. cbn in Hk2. lia.
      * assert (p' = p) as -> by congruence. split; reflexivity.
    + intros [-> ->]. apply (tool_waits _ _ _ [] 0 p Hf). rewrite H0. cbn. lia.
Qed.
(** Partial: a file whose every line ends with a line feed, of packets that the
    receiver answers, is replayed completely, whatever pieces of the answers
    each recv returns; blanks between the bytes do not matter. *)
Theorem C128_spaced_file_replayed_partial : forall (E : go_env) texts pkts,
  Forall2 spells_spaced texts pkts -> Forall good pkts -> Forall calls_for_reply pkts ->
  let file := concat (map (fun t => t ++ [10]) texts) in
  (exists sent e, replays file sent e) /\ forall sent e, replays file sent e -> sent = pkts /\ e = TFinished.
Proof.
  intros E texts pkts Ht Hg Hr file.
  assert (Hlines : read_lines file = map (fun t => t ++ [10]) texts).
  { apply read_texts. clear - Ht. induction Ht as [|t p texts pkts Ht _ IH]; constructor; [exact (spaced_no_lf _ _ Ht)|exact IH]. }
  assert (Hx : Forall2 (fun t p => fromhex t = Some p) texts pkts).
  { clear - Ht. induction Ht as [|t p texts pkts Ht _ IH]; constructor; [exact (fromhex_spaced _ _ Ht)|exact IH]. }
  unfold replays. rewrite Hlines. destruct (tool_all texts pkts Hx Hg Hr [] 0%nat (Forall_nil _) (Nat.le_0_l _)) as [H1 H2]. split; [exact H2|exact H1].
Qed.
Theorem C128_file_replayed_partial : forall (E : go_env) texts pkts,
  Forall2 spells texts pkts -> Forall good pkts -> Forall calls_for_reply pkts ->
  let file := concat (map (fun t => t ++ [10]) texts) in
  (exists sent e, replays file sent e) /\ forall sent e, replays file sent e -> sent = pkts /\ e = TFinished.
Proof.
  intros E texts pkts Ht. apply C128_spaced_file_replayed_partial. clear - Ht.
  assert (Hs : forall t p, spells t p -> spells_spaced t p) by (induction 1; constructor; assumption).
  induction Ht as [|t p texts pkts Ht _ IH]; constructor; [exact (Hs _ _ Ht)|exact IH].
Qed.

(** Non-vacuity: a position packet and a response, spelled in hexadecimal. *)
Definition hex_of (x : N) : N := if x <? 10 then x + 48 else x + 87.
Definition hex_text (b : bytes) : gostr := flat_map (fun x => [hex_of (x / 16); hex_of (x mod 16)]) b.
Lemma hex_text_spells b : Forall (fun x => x < 256) b -> spells (hex_text b) b.
Proof.
  induction 1 as [|x b Hx _ IH]; [constructor|]. cbn [hex_text flat_map app].
  assert (Hd : forall y, y < 16 -> hex_digit (hex_of y) y).
  { intros y Hy. unfold hex_digit, hex_of. destruct (N.ltb_spec y 10); lia. }
  assert (E1 : x = 16 * (x / 16) + x mod 16) by (apply N.div_mod; discriminate). rewrite E1 at 3.
  constructor; [apply Hd, N.div_lt_upper_bound; [discriminate|exact Hx]|apply Hd, N.mod_lt; discriminate|exact IH].
Qed.
Example C128_spaced_example : spells_spaced (hex_text [1] ++ [32; 9] ++ hex_text [165] ++ [32]) [1; 165].
Proof.
  apply (spaced_byte 48 49 0 1); [unfold hex_digit; lia|unfold hex_digit; lia|].
  do 2 (apply spaced_blank; [|lia]). apply (spaced_byte 97 53 10 5); [unfold hex_digit; lia|unfold hex_digit; lia|].
  apply spaced_blank; [constructor|lia].
Qed.
Example C128_example : forall E : go_env,
  spells (hex_text north) north /\ good north /\ calls_for_reply north /\
  spells (hex_text vec_ptresp) vec_ptresp /\ good vec_ptresp /\ exists q, decodes_to vec_ptresp q /\ pPT q = 0.
Proof.
  intros E. assert (Gr : good vec_ptresp).
  { apply good_std; [split; [vm_compute; reflexivity|]; split; [vm_compute; reflexivity|];
      split; [vm_compute; reflexivity|]; vm_compute; split; [discriminate|reflexivity]|vm_compute; reflexivity]. }
  split; [apply hex_text_spells; repeat constructor|]. split; [exact north_good|]. split.
  - intros p Hp. assert (D : exists p l, pkg_decode pkg0 (mkSlice north []) = (p, DRet 0 false) /\ pSFRD p = Some (FSds l) /\ confirms l = false).
    { do 2 eexists. split; [vm_compute; reflexivity|]. split; reflexivity. }
    destruct D as (p' & l & Hd & Hl & Hc). specialize (Hp []). rewrite Hd in Hp. assert (p' = p) as -> by congruence. exists l. split; assumption.
  - split; [apply hex_text_spells; repeat constructor|]. split; [exact Gr|].
    eexists. split; [apply decodes_to_nil; [exact Gr|]; vm_compute; reflexivity|]. reflexivity.
Qed.
Print Assumptions C128_file_replayed_refuted.
Print Assumptions C128_spaced_file_replayed_partial.
Print Assumptions C128_file_replayed_partial.
