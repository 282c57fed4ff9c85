(** * DamageFacts: damaged packets inside a stream; truncation and reuse, exactly. *)
From Coq Require Import Lia.
From Verif Require Import GoBase Crc Float64 SubRecords Records Package Storage Server
  Spec_Bits Spec_Wf Spec_Rec Spec_Crc Spec_Pkg Spec_Server Spec_Stream Spec_Damage BaseFacts CrcFacts SubFacts RecFacts
  DecFacts PkgFacts PkgFacts2 BurstFacts ServerFacts ServerFacts2 ServerFacts3 StreamFacts GlueServer.

Section DamageFacts.
Context {E : go_env}.

Lemma bytes_ok_concat_good pkts : Forall good pkts -> bytes_ok (concat pkts) = true.
Proof.
  induction 1 as [|x l [[Hx _] _] _ IH]; [reflexivity|]. cbn [concat]. rewrite bytes_ok_app, Hx, IH. reflexivity.
Qed.

(** one good packet, then anything *)
Lemma exec_unit u acts : a_unit u -> process (mkSlice u (room u)) = PActs acts ->
  forall e s, bytes_ok s = true ->
  conn_exec (mkIn [u ++ s] e) = (acts ++ fst (conn_exec (mkIn [s] e)), snd (conn_exec (mkIn [s] e))).
Proof.
  intros Hu Hp e s Hs.
  destruct (conn_step_unit (mkIn [u ++ s] e) u s Hu) as (rest & Hr & Hst);
    [cbn [ci_chunks concat]; apply app_nil_r|].
  rewrite conn_exec_step
    by (cbn [ci_chunks concat]; rewrite app_nil_r, bytes_ok_app, Hs; destruct Hu as [-> _]; reflexivity).
  rewrite Hst, Hp. cbn [ci_end].
  rewrite (conn_exec_stream (mkIn rest e) (mkIn [s] e)); [|cbn [ci_chunks concat]; rewrite app_nil_r; exact Hr|reflexivity].
  destruct (conn_exec (mkIn [s] e)). reflexivity.
Qed.

Lemma exec_prefix pkts : Forall good pkts -> exists A, forall e s, bytes_ok s = true ->
  conn_exec (mkIn [concat pkts ++ s] e) = (A ++ fst (conn_exec (mkIn [s] e)), snd (conn_exec (mkIn [s] e))).
Proof.
  induction 1 as [|b pkts Hb Hg IH].
  - exists []. intros e s Hs. cbn [concat app]. apply surjective_pairing.
  - destruct IH as [A HA]. destruct Hb as [Hf Hsv].
    destruct (process_spec b (room b) Hf Hsv) as (acts & Hp & _).
    exists (acts ++ A). intros e s Hs. cbn [concat]. rewrite <- app_assoc.
    rewrite (exec_unit b acts (framed_unit b Hf) Hp e (concat pkts ++ s))
      by (rewrite bytes_ok_app, bytes_ok_concat_good, Hs; [reflexivity | exact Hg]).
    rewrite HA by exact Hs. cbn [fst snd]. rewrite app_assoc. reflexivity.
Qed.

Lemma refused_good b b' : framed b -> whole b -> bytes_ok b' = true -> length b' = length b ->
  byte_at b' 0 = 1 -> decl_hl b' = decl_hl b -> decl_fdl b' = decl_fdl b -> routed b' = routed b ->
  (forall spare, refused pkg0 b' spare) -> good b'.
Proof.
  intros (Hb & H0 & Hlen & Hw) Hwh Hok Hl H0' Hhl Hfdl Hrt Href. split.
  - assert (wire_len b' = wire_len b) as Hwl by (unfold wire_len; rewrite Hhl, Hfdl; reflexivity).
    split; [exact Hok|]. split; [exact H0'|]. rewrite Hwl. split; [|exact Hw]. unfold blen in *. rewrite Hl. exact Hlen.
  - intros spare Hp. destruct (Href spare) as (q & code & Hd & _). rewrite Hd in Hp. discriminate Hp.
Qed.

Lemma firstn_nth_eq (l l' : bytes) n i : (i < n)%nat -> firstn n l = firstn n l' -> nth i l 0 = nth i l' 0.
Proof.
  intros Hi H. pose proof (nth_firstn_ n i l 0) as H1. pose proof (nth_firstn_ n i l' 0) as H2.
  rewrite H in H1. rewrite (proj2 (Nat.ltb_lt i n) Hi) in H1, H2. congruence.
Qed.

Lemma hurt_shape b b' : hurt b b' -> length b' = length b /\ decl_hl b' = decl_hl b /\ routed b' = routed b.
Proof.
  intros [(Hbu & Hhl & Hrt)|(Hbu & Hsame)].
  - split; [symmetry; apply Hbu|]. split; assumption.
  - pose proof (hcs_pos_ge b) as Hge. split; [symmetry; apply Hbu|].
    unfold decl_hl, routed, byte_at.
    rewrite (firstn_nth_eq b' b (frame_pos b) 3), (firstn_nth_eq b' b (frame_pos b) 2)
      by (unfold frame_pos; lia || exact Hsame). split; reflexivity.
Qed.

Lemma hurt_refused b b' p spare : bytes_ok b = true -> bytes_ok b' = true -> whole b ->
  decodes_to b p -> hurt b b' -> refused pkg0 b' spare.
Proof.
  intros Hok Hok' Hw Hd [Hh|(Hbu & Hsame)].
  - exact (short_burst_refused pkg0 pkg0 b b' spare p false Hok Hok' Hw (Hd spare) Hh).
  - exact (tail_burst_refused pkg0 pkg0 b b' spare p false Hok Hok' Hw (Hd spare) Hbu Hsame).
Qed.

Lemma damage_contained before b b' p : Forall good before -> framed b -> whole b -> decodes_to b p ->
  bytes_ok b' = true -> hurt b b' -> byte_at b' 0 = 1 -> decl_fdl b' = decl_fdl b ->
  exists A B nack code, packet_actions b B /\ code <> 0 /\ is_ack nack (word_at b' 7) code 0 [] /\
  forall e rest, bytes_ok rest = true -> exists R f,
    conn_exec (mkIn [concat before ++ b ++ rest] e) = (A ++ B ++ R, f) /\
    conn_exec (mkIn [concat before ++ b' ++ rest] e) = (A ++ [AWrite nack] ++ R, f).
Proof.
  intros Hg Hf Hw Hd Hok' Hh H0 Hfdl.
  pose proof Hf as (Hok & _). destruct (hurt_shape b b' Hh) as (Hl & Hhl & Hrt).
  assert (forall spare, refused pkg0 b' spare) as Href by (intro spare; eapply hurt_refused; eassumption).
  pose proof (refused_good b b' Hf Hw Hok' Hl H0 Hhl Hfdl Hrt Href) as [Hf' Hsv'].
  assert (survives b) as Hsv by (intros spare Hp; rewrite (Hd spare) in Hp; discriminate Hp).
  destruct (exec_prefix before Hg) as [A HA].
  destruct (process_spec b (room b) Hf Hsv) as (B & HB & HpB).
  destruct (process_spec b' (room b') Hf' Hsv') as (B' & HB' & HpB').
  destruct HpB' as (q & code & err & Hall & Hpid & Hrej & _).
  destruct (Href []) as (q' & code' & Hq' & Hc'). rewrite (Hall []) in Hq'. injection Hq' as <- <- ->.
  destruct (Hrej eq_refl) as (_ & nack & -> & Hack).
  exists A, B, nack, code. split; [exact HpB|]. split; [exact Hc'|]. split; [rewrite <- Hpid; exact Hack|].
  intros e rest Hrest. exists (fst (conn_exec (mkIn [rest] e))), (snd (conn_exec (mkIn [rest] e))).
  split.
  - assert (bytes_ok (b ++ rest) = true) as Hbr by (rewrite bytes_ok_app, Hok; exact Hrest).
    pose proof (exec_unit b B (framed_unit b Hf) HB e rest Hrest) as HX.
    refine (eq_trans (HA e (b ++ rest) Hbr) _).
    exact (f_equal (fun z : list action * conn_fin => (A ++ fst z, snd z)) HX).
  - assert (bytes_ok (b' ++ rest) = true) as Hbr by (rewrite bytes_ok_app, Hok'; exact Hrest).
    pose proof (exec_unit b' [AWrite nack] (framed_unit b' Hf') HB' e rest Hrest) as HX.
    refine (eq_trans (HA e (b' ++ rest) Hbr) _).
    exact (f_equal (fun z : list action * conn_fin => (A ++ fst z, snd z)) HX).
Qed.

(** ** A damaged length field *)
Lemma length_damage b b' t p : framed b -> whole b -> decodes_to b p -> damaged 8 b b' ->
  bytes_ok b' = true -> firstn (frame_pos b) b' <> firstn (frame_pos b) b -> a_unit (b' ++ t) ->
  exists nack, is_ack nack (word_at b' 7) 137 0 [] /\
  forall e rest, bytes_ok rest = true ->
    conn_exec (mkIn [(b' ++ t) ++ rest] e) =
    (AWrite nack :: fst (conn_exec (mkIn [rest] e)), snd (conn_exec (mkIn [rest] e))).
Proof.
  intros Hf Hw Hd (Hburst & Hhl & Hrt) Hok' Hdiff Hu. pose proof Hf as (Hok & _).
  destruct (whole_split b Hw) as (pre & c & body & x & y & Hb & Hp & Hbody).
  destruct (whole_accepted pkg0 b [] p false pre c body x y Hok Hw Hb Hp Hbody (Hd [])) as (Hstd & Hc & Hcrc & Hsum).
  destruct (same_len_split b b' pre c body x y Hb (eq_sym (proj1 Hburst))) as (pre' & c' & body' & x' & y' & Hb' & Hp' & Hbody').
  assert (hcs_pos b' = hcs_pos b) as Hh by (unfold hcs_pos; rewrite Hrt; reflexivity).
  pose proof (hcs_pos_ge b) as Hge.
  assert (forall (l r : bytes) n, length l = n -> firstn n (l ++ r) = l) as Hfi.
  { intros l r n <-. rewrite firstn_app, Nat.sub_diag, firstn_all. apply app_nil_r. }
  assert (pre ++ [c] <> pre' ++ [c']) as Hne.
  { intro Heq. apply Hdiff. unfold frame_pos. rewrite <- Hp, Hb, Hb'.
    rewrite !Hfi by (rewrite app_length; cbn [length]; lia). symmetry. exact Heq. }
  pose proof Hok as Hok1. pose proof Hok' as Hok1'. rewrite Hb in Hok1. rewrite Hb' in Hok1'.
  rewrite bytes_ok_app in Hok1, Hok1'. apply andb_prop in Hok1, Hok1'.
  destruct Hok1 as [Hh1 Ht1]. destruct Hok1' as [Hh2 Ht2].
  pose proof Hburst as Hbu. rewrite Hb, Hb' in Hbu.
  destruct (burst_head (pre ++ [c]) (body ++ [x; y]) (pre' ++ [c']) (body' ++ [x'; y']) Hh1 Hh2 Ht1 Ht2
             ltac:(rewrite !app_length; cbn [length]; lia) 8 Hbu) as [Heq|Hhd]; [contradiction|].
  assert (10 <= length b')%nat as H10.
  { rewrite <- (proj1 Hburst), Hb, !app_length. lia. }
  pose proof Hu as (Huok & Hul & Hu0 & Hulen).
  assert (snd (pkg_decode pkg0 (mkSlice (b' ++ t) (room (b' ++ t)))) = DRet 137 true) as H137.
  { apply header_refused; [exact Huok | | |].
    - rewrite decl_hl_app by exact H10. rewrite Hhl. destruct Hw as [Hw _]. rewrite Hw. unfold std_hl.
      rewrite frame_pos_app by exact H10. unfold frame_pos. rewrite Hh. reflexivity.
    - rewrite hcs_pos_app by exact H10. rewrite Hh, <- Hp, app_length, <- (proj1 Hburst), Hb, !app_length. cbn [length]. lia.
    - rewrite hcs_pos_app by exact H10. rewrite Hh, <- Hp, <- Hp'.
      rewrite Hb'. rewrite <- !app_assoc. cbn [app]. unfold byte_at. rewrite app_nth2, Nat.sub_diag by lia. cbn [nth].
      rewrite Hfi by reflexivity. rewrite bytes_ok_app in Hh1, Hh2. apply andb_prop in Hh1, Hh2.
      intro Hc'. exact (crc8_codeword pre pre' c c' (eq_sym Hp') (proj1 Hh1) (proj1 Hh2) Hc Hc' Hhd). }
  destruct (process_unit (b' ++ t) (room (b' ++ t)) Huok Hul ltac:(rewrite H137; discriminate))
    as (acts & Hpr & q & code & err & Hq & Hpid & Hrej & _).
  rewrite Hq in H137. cbn [snd] in H137. injection H137 as -> ->.
  destruct (Hrej eq_refl) as (_ & nack & -> & Hack).
  exists nack. split.
  - rewrite Hpid in Hack. rewrite word_at_app in Hack by lia. exact Hack.
  - intros e rest Hrest. rewrite (exec_unit _ _ Hu Hpr e rest Hrest). reflexivity.
Qed.

(** ** Truncation, exactly *)
Lemma firstn_last (b : bytes) x y pre : b = pre ++ [x; y] -> firstn (length b - 1) b = pre ++ [x].
Proof.
  intros ->. rewrite app_length. cbn [length]. replace (length pre + 2 - 1)%nat with (length (pre ++ [x]))
    by (rewrite app_length; cbn [length]; lia).
  replace (pre ++ [x; y]) with ((pre ++ [x]) ++ [y]) by (rewrite <- app_assoc; reflexivity).
  rewrite firstn_app, Nat.sub_diag, firstn_all. apply app_nil_r.
Qed.

Lemma prefix_exact p b spare p' e : bytes_ok b = true -> whole b ->
  pkg_decode p (mkSlice b spare) = (p', DRet 0 e) ->
  forall k q spare', (k < length b)%nat ->
  ((exists q' e', pkg_decode q (mkSlice (firstn k b) spare') = (q', DRet 0 e')) <->
   k = (length b - 1)%nat /\ last b 0 = 0).
Proof.
  intros Hok Hw Hd k q spare' Hk.
  destruct (whole_split b Hw) as (pre & c & body & x & y & Hb & Hp & Hbody).
  destruct (whole_accepted p b spare p' e pre c body x y Hok Hw Hb Hp Hbody Hd) as (Hstd & Hc & Hcrc & Hsum).
  assert (e = false) as -> by (apply accept_iff in Hd; [apply Hd | exact Hok]).
  assert (last b 0 = y) as Hlast.
  { rewrite Hb. replace ((pre ++ [c]) ++ body ++ [x; y]) with (((pre ++ [c]) ++ body ++ [x]) ++ [y])
      by (rewrite <- !app_assoc; reflexivity). apply last_last. }
  assert (firstn (length b - 1) b = (pre ++ [c]) ++ body ++ [x]) as Hfl.
  { rewrite (app_assoc _ body [x]). apply (firstn_last b x y). rewrite Hb, !app_assoc. reflexivity. }
  rewrite Hlast. split.
  - intros (q' & e' & Hq). pose proof Hd as Hd2. rewrite Hb in Hd2, Hq, Hk.
    assert (bytes_ok ((pre ++ [c]) ++ body ++ [x; y]) = true) as Hok2 by (rewrite <- Hb; exact Hok).
    destruct (prefix_partial p q (pre ++ [c]) body x y spare spare' p' Hok2 Hstd Hd2 k q' e' Hk Hq) as (H1 & H2 & _).
    split; [|exact H1]. apply (f_equal (@length N)) in H2. rewrite firstn_length in H2.
    rewrite Hb. rewrite !app_length in *. cbn [length] in *. lia.
  - intros [-> ->]. rewrite Hfl.
    apply accept_iff in Hd; [|exact Hok]. destruct Hd as (_ & f & Ha & _). rewrite Hb in Ha.
    apply std_accept in Ha; [|exact Hstd]. destruct Ha as (_ & H2 & H3 & H4 & H5 & H6).
    assert (bytes_ok ((pre ++ [c]) ++ body ++ [x]) = true) as Hok2.
    { rewrite Hb in Hok. rewrite !bytes_ok_app in *. cbn [bytes_ok forallb] in *.
      apply andb_prop in Hok. destruct Hok as [-> Hok]. apply andb_prop in Hok. destruct Hok as [-> Hok].
      apply andb_prop in Hok. destruct Hok as [-> _]. reflexivity. }
    exists (final_of q ((pre ++ [c]) ++ body ++ [x]) f), false.
    apply accept_iff; [exact Hok2|]. split; [reflexivity|]. exists f. split; [|reflexivity].
    assert (std_packet (pre ++ [c]) body [x]) as Hstd' by exact Hstd.
    apply std_accept; [exact Hstd'|]. repeat split; try assumption. discriminate.
Qed.

(** ** Reuse, exactly *)
Lemma hdr_reuse q data :
  hdr_of q data =
  (if routed data then fun f => f else fun f => set_PRA (pPRA q) (set_RCA (pRCA q) (set_TTL (pTTL q) f)))
    (set_SFRCS (pSFRCS q) (set_SFRD (pSFRD q) (set_HCS (pHCS q) (hdr_of pkg0 data)))).
Proof. unfold hdr_of at 1. destruct (routed data) eqn:Hr; unfold hdr_of; rewrite Hr; reflexivity. Qed.

Lemma set_over a b c a' b' c' h : set_SFRCS a (set_SFRD b (set_HCS c (set_SFRCS a' (set_SFRD b' (set_HCS c' h))))) =
  set_SFRCS a (set_SFRD b (set_HCS c h)).
Proof. destruct h. reflexivity. Qed.

Lemma set_comm a b c x y z h : set_SFRCS a (set_SFRD b (set_HCS c (set_PRA x (set_RCA y (set_TTL z h))))) =
  set_PRA x (set_RCA y (set_TTL z (set_SFRCS a (set_SFRD b (set_HCS c h))))).
Proof. destruct h. reflexivity. Qed.

Lemma reuse_exact q data spare f : bytes_ok data = true ->
  pkg_decode pkg0 (mkSlice data spare) = (f, DRet 0 false) ->
  pkg_decode q (mkSlice data spare) =
    (if routed data then f else set_PRA (pPRA q) (set_RCA (pRCA q) (set_TTL (pTTL q) f)), DRet 0 false).
Proof.
  intros Hok Hd. apply accept_iff in Hd; [|exact Hok]. destruct Hd as (_ & g & Ha & ->).
  apply accept_iff; [exact Hok|]. split; [reflexivity|]. exists g. split; [exact Ha|].
  unfold final_of. rewrite (hdr_reuse q data). set (h := hdr_of pkg0 data).
  destruct (routed data).
  - symmetry. apply set_over.
  - rewrite set_comm, set_over. reflexivity.
Qed.

End DamageFacts.
