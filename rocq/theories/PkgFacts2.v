(** * PkgFacts2: consequences of the characterisation of Package.Decode. *)
From Coq Require Import Lia ZifyBool ZifyNat ZifyN.
From Verif Require Import Spec_Go GoBase Spec_Bits BaseFacts Crc Float64 SubRecords Records Package
  Spec_Crc Spec_Wf Spec_Rec Spec_Pkg SubFacts RecFacts DecFacts DecWf DecWf2 CrcFacts PkgFacts.
Local Arguments N.add : simpl never.
Local Arguments N.mul : simpl never.

Section PkgFacts2.
Context {E : go_env}.

Lemma accept_unique data spare f g : accepted data spare f -> accepted data spare g -> f = g.
Proof. intros (_ & _ & _ & _ & H & _) (_ & _ & _ & _ & H' & _). congruence. Qed.

Lemma final_agrees p data f : bytes_ok data = true -> header_agrees data (final_of p data f).
Proof.
  intros Hb. pose proof (flag_strings (byte_at data 2) (bytes_ok_nth data 2 Hb)) as (H1 & H2 & H3 & H4 & H5).
  unfold header_agrees, final_of. cbv zeta.
  cbn [pPRV pSKID pPRF pRTE pENA pCMP pPR pHL pHE pFDL pPID pPT pPRA pRCA pTTL pHCS pSFRD pSFRCS hdr_of set_HCS set_SFRD set_SFRCS].
  repeat (split; [first [assumption|reflexivity| (intros ->; auto)]|]). reflexivity.
Qed.

(** ** Byte strings that share the header *)
Lemma nth_app_l {A} (a b : list A) i d : (i < length a)%nat -> nth i (a ++ b) d = nth i a d.
Proof. apply app_nth1. Qed.

Lemma routed_app a b : (10 <= length a)%nat -> routed (a ++ b) = routed a.
Proof. intros H. unfold routed, byte_at. rewrite app_nth1 by lia. reflexivity. Qed.
Lemma hcs_pos_app a b : (10 <= length a)%nat -> hcs_pos (a ++ b) = hcs_pos a.
Proof. intros H. unfold hcs_pos. rewrite routed_app by exact H. reflexivity. Qed.
Lemma frame_pos_app a b : (10 <= length a)%nat -> frame_pos (a ++ b) = frame_pos a.
Proof. intros H. unfold frame_pos. rewrite hcs_pos_app by exact H. reflexivity. Qed.
Lemma decl_hl_app a b : (10 <= length a)%nat -> decl_hl (a ++ b) = decl_hl a.
Proof. intros H. unfold decl_hl, byte_at. rewrite app_nth1 by lia. reflexivity. Qed.
Lemma decl_fdl_app a b : (10 <= length a)%nat -> decl_fdl (a ++ b) = decl_fdl a.
Proof. intros H. unfold decl_fdl, word_at. rewrite !app_nth1 by lia. reflexivity. Qed.
Lemma byte_at_app a b i : (i < length a)%nat -> byte_at (a ++ b) i = byte_at a i.
Proof. intros H. unfold byte_at. apply app_nth1. exact H. Qed.
Lemma word_at_app a b i : (S i < length a)%nat -> word_at (a ++ b) i = word_at a i.
Proof. intros H. unfold word_at. rewrite !app_nth1 by lia. reflexivity. Qed.
Lemma hcs_pos_ge b : (10 <= hcs_pos b)%nat.
Proof. unfold hcs_pos. destruct (routed b); lia. Qed.
Lemma hcs_pos_le b : (hcs_pos b <= 15)%nat.
Proof. unfold hcs_pos. destruct (routed b); lia. Qed.

Lemma area_app a b i n : i + n <= blen a -> area (a ++ b) i n = area a i n.
Proof.
  intros H. unfold area, blen in *. rewrite skipn_app, firstn_app.
  rewrite skipn_length. replace (N.to_nat n - (length a - N.to_nat i))%nat with 0%nat by lia.
  cbn [firstn]. apply app_nil_r.
Qed.
Lemma to_nat_blen b : N.to_nat (blen b) = length b.
Proof. unfold blen. apply Nat2N.id. Qed.
Lemma area_0 a n : area a 0 n = firstn (N.to_nat n) a.
Proof. reflexivity. Qed.
Lemma area_split a b c : area (a ++ b ++ c) (blen a) (blen b) = b.
Proof.
  unfold area, blen. rewrite !Nat2N.id. rewrite skipn_exact by reflexivity. apply firstn_exact. reflexivity.
Qed.


Lemma std_len hdr body rest : std_packet hdr body rest -> (10 < length hdr <= 16)%nat.
Proof. intros (H & _). unfold frame_pos in H. pose proof (hcs_pos_ge hdr). pose proof (hcs_pos_le hdr). lia. Qed.

Lemma std_hl_u8 hdr body rest : std_packet hdr body rest -> u8 (decl_hl hdr + 255) = blen hdr - 1.
Proof.
  intros H. pose proof (std_len _ _ _ H) as HL. destruct H as (_ & -> & _). unfold u8, blen.
  replace (N.of_nat (length hdr) + 255) with (N.of_nat (length hdr) - 1 + 1 * 256) by lia.
  rewrite N.mod_add by lia. apply N.mod_small. lia.
Qed.

(** Acceptance of such a packet, spelled out. *)
Lemma std_accept hdr body rest spare f : std_packet hdr body rest ->
  (accepted (hdr ++ body ++ rest) spare f <->
   rest <> [] /\ blen hdr + blen body < 2 ^ 16 /\
   byte_at hdr (hcs_pos hdr) = crc8 (firstn (hcs_pos hdr) hdr) /\
   (byte_at hdr 9 = 0 \/ byte_at hdr 9 = 1) /\
   frame_decode (byte_at hdr 9) body = Ok f /\
   word_at rest 0 = crc16 body).
Proof.
  intros Hstd. pose proof (std_len _ _ _ Hstd) as HL. pose proof (std_hl_u8 _ _ _ Hstd) as Hu.
  destruct Hstd as (Hp & Hhl & Hfdl).
  unfold accepted. cbv zeta. unfold sfrcs_of, frame_of.
  rewrite frame_pos_app, decl_hl_app, decl_fdl_app, hcs_pos_app by lia.
  rewrite Hu. rewrite !byte_at_app by (unfold frame_pos in Hp; lia).
  rewrite <- Hp, Hhl, Hfdl. rewrite !to_nat_blen.
  rewrite skipn_exact, firstn_exact by reflexivity.
  rewrite <- !app_assoc. rewrite area_split.
  assert (area (hdr ++ body ++ rest ++ spare) 0 (blen hdr - 1) = firstn (hcs_pos hdr) hdr) as ->.
  { rewrite area_app by lia. rewrite area_0. f_equal. unfold frame_pos in Hp. unfold blen. lia. }
  assert (word_at (hdr ++ body ++ rest) (length hdr + length body) = word_at rest 0) as ->.
  { unfold word_at. rewrite app_assoc. rewrite <- app_length.
    rewrite !app_nth2 by lia. repeat f_equal; lia. }
  rewrite !app_length, !blen_app.
  split.
  - intros (H1 & H2 & H3 & H4 & H5 & H6 & H7 & H8). repeat split; try assumption.
    intros ->. cbn [length] in H1. lia.
  - intros (H1 & H2 & H3 & H4 & H5 & H6). destruct rest as [|x rest]; [congruence|].
    repeat split; try assumption; cbn [length]; lia.
Qed.

(** ** C03 *)
Lemma body_burst_rejected p q hdr body body' rest spare p' :
  bytes_ok hdr = true -> bytes_ok body = true -> bytes_ok body' = true -> bytes_ok rest = true ->
  std_packet hdr body rest ->
  pkg_decode p (mkSlice (hdr ++ body ++ rest) spare) = (p', DRet 0 false) ->
  burst 16 body body' ->
  exists q' code, pkg_decode q (mkSlice (hdr ++ body' ++ rest) spare) = (q', DRet code true) /\ code <> 0.
Proof.
  intros Hh Hb Hb' Hr Hstd Hd Hburst.
  assert (bytes_ok (hdr ++ body ++ rest) = true) as Hok by (rewrite !bytes_ok_app, Hh, Hb, Hr; reflexivity).
  assert (bytes_ok (hdr ++ body' ++ rest) = true) as Hok' by (rewrite !bytes_ok_app, Hh, Hb', Hr; reflexivity).
  apply accept_iff in Hd; [|exact Hok]. destruct Hd as (_ & f & Ha & _).
  apply std_accept in Ha; [|exact Hstd]. destruct Ha as (H1 & H2 & H3 & H4 & H5 & H6).
  assert (length body = length body') as Hlen by apply Hburst.
  assert (std_packet hdr body' rest) as Hstd'.
  { destruct Hstd as (Ha & Hb2 & Hc). repeat split; try assumption. rewrite Hc. unfold blen. rewrite Hlen. reflexivity. }
  pose proof (std_len _ _ _ Hstd') as HL. pose proof (std_hl_u8 _ _ _ Hstd') as Hu.
  assert (crc16 body <> crc16 body') as Hne by (apply crc16_burst; assumption).
  destruct (pkg_decode q (mkSlice (hdr ++ body' ++ rest) spare)) as [q' out] eqn:Hq.
  pose proof (decode_out q (hdr ++ body' ++ rest) spare Hok') as Ho. rewrite Hq in Ho. cbn [snd] in Ho.
  assert (forall e, out <> DRet 0 e) as Hnacc.
  { intros e ->. apply accept_iff in Hq; [|exact Hok']. destruct Hq as (_ & g & Ha & _).
    apply std_accept in Ha; [|exact Hstd']. destruct Ha as (_ & _ & _ & _ & _ & Ha). congruence. }
  assert (exists code e, out = DRet code e) as (code & e & ->).
  { rewrite Ho. unfold outcome. cbv zeta.
    destruct (_ <=? _)%nat; [eauto|].
    rewrite decl_hl_app by lia. rewrite Hu. rewrite !decl_fdl_app by lia.
    rewrite (proj2 (N.ltb_ge _ _)) by (rewrite !blen_app; unfold blen; lia).
    destruct (negb _); [eauto|]. destruct (_ <=? _)%nat; [eauto|]. destruct (negb _); [eauto|].
    pose proof (frame_decode_returns (byte_at (hdr ++ body' ++ rest) 9) (frame_read (hdr ++ body' ++ rest))) as Hret.
    destruct (frame_decode (byte_at (hdr ++ body' ++ rest) 9) (frame_read (hdr ++ body' ++ rest)));
      cbn [ares]; try contradiction; [|eauto].
    destruct (_ <=? _)%nat; [eauto|].
    destruct Hstd' as (_ & Hs1 & Hs2). rewrite Hs1, Hs2.
    rewrite (proj2 (N.leb_gt _ _)) by (unfold blen in *; lia).
    rewrite (proj2 (N.ltb_ge _ _)) by (rewrite !blen_app; unfold blen; lia). cbn [orb].
    destruct (_ =? _); eauto. }
  exists q', code. destruct (N.eq_dec code 0) as [->|Hc]; [exfalso; eapply Hnacc; reflexivity|].
  split; [|exact Hc]. destruct e; [reflexivity|].
  (* success is only reported with code 0 *)
  exfalso. clear - Ho Hc. unfold outcome in Ho. cbv zeta in Ho.
  repeat match type of Ho with context [if ?c then _ else _] => destruct c; try discriminate Ho end.
  all: destruct (frame_decode (byte_at (hdr ++ body' ++ rest) 9) (frame_read (hdr ++ body' ++ rest))); cbn [ares] in Ho; try discriminate Ho.
  all: repeat match type of Ho with context [if ?c then _ else _] => destruct c; try discriminate Ho end.
  all: injection Ho as ->; apply Hc; reflexivity.
Qed.

(** ** C04: any header byte, the flags byte included as long as bit 5 is kept *)
Lemma crc8_change pre x y post : bytes_ok pre = true -> byte_ok x = true -> byte_ok y = true ->
  bytes_ok post = true -> x <> y -> crc8 (pre ++ x :: post) <> crc8 (pre ++ y :: post).
Proof. intros. apply (crc8_one_byte pre x y post); assumption. Qed.

Lemma header_byte_rejected p q pre x y post rest spare p' :
  bytes_ok (pre ++ x :: post) = true -> byte_ok y = true -> bytes_ok rest = true -> x <> y ->
  let hdr := pre ++ x :: post in let hdr' := pre ++ y :: post in
  length hdr = frame_pos hdr -> decl_hl hdr = blen hdr ->
  routed hdr' = routed hdr -> length pre <> 3%nat ->
  pkg_decode p (mkSlice (hdr ++ rest) spare) = (p', DRet 0 false) ->
  snd (pkg_decode q (mkSlice (hdr' ++ rest) spare)) = DRet pcHeaderCrcError true.
Proof.
  intros Hok Hy Hr Hxy hdr hdr' Hlen Hhl Hrt Hn3 Hd.
  assert (length hdr' = length hdr) as Hll by (subst hdr hdr'; rewrite !app_length; reflexivity).
  assert (bytes_ok pre = true /\ byte_ok x = true /\ bytes_ok post = true) as (Hp & Hx & Hq).
  { rewrite bytes_ok_app, bytes_ok_cons, !andb_true_iff in Hok. tauto. }
  assert (bytes_ok hdr' = true) as Hok' by (subst hdr'; rewrite bytes_ok_app, bytes_ok_cons, Hp, Hy, Hq; reflexivity).
  pose proof (hcs_pos_ge hdr) as Hge. pose proof (hcs_pos_le hdr) as Hle. unfold frame_pos in Hlen.
  assert (hcs_pos hdr' = hcs_pos hdr) as Hpos by (unfold hcs_pos; rewrite Hrt; reflexivity).
  assert (decl_hl hdr' = decl_hl hdr) as Hhl'.
  { unfold decl_hl, byte_at. subst hdr hdr'. destruct (Nat.lt_ge_cases 3 (length pre)) as [H|H].
    - rewrite !app_nth1 by lia. reflexivity.
    - rewrite !app_nth2 by lia. destruct (3 - length pre)%nat eqn:H3; [lia|]. reflexivity. }
  assert (u8 (blen hdr + 255) = blen hdr - 1) as Hu.
  { unfold u8, blen. replace (N.of_nat (length hdr) + 255) with (N.of_nat (length hdr) - 1 + 1 * 256) by lia.
    rewrite N.mod_add by lia. apply N.mod_small. lia. }
  apply accept_iff in Hd; [|rewrite bytes_ok_app; fold hdr in Hok; rewrite Hok; exact Hr].
  destruct Hd as (_ & f & Ha & _). destruct Ha as (_ & _ & H3 & _).
  rewrite hcs_pos_app, decl_hl_app in H3 by lia. rewrite byte_at_app in H3 by lia.
  rewrite Hhl, Hu in H3. rewrite <- app_assoc in H3. rewrite area_app in H3 by lia. rewrite area_0 in H3.
  rewrite decode_out by (rewrite bytes_ok_app, Hok'; exact Hr).
  unfold outcome. cbv zeta. rewrite hcs_pos_app, decl_hl_app by lia. rewrite byte_at_app by lia.
  rewrite (proj2 (Nat.leb_gt _ _)) by (rewrite app_length; lia).
  rewrite Hhl', Hhl, Hu. rewrite (proj2 (N.ltb_ge _ _)) by (rewrite !blen_app; unfold blen; lia).
  rewrite <- app_assoc. rewrite area_app by (unfold blen; lia). rewrite area_0.
  assert (N.to_nat (blen hdr - 1) = hcs_pos hdr) as Hn by (unfold blen; lia). rewrite Hn in *. rewrite Hpos.
  assert (byte_at hdr' (hcs_pos hdr) <> crc8 (firstn (hcs_pos hdr) hdr')) as Hne.
  { assert (length hdr = length pre + S (length post))%nat as Hsum by (subst hdr; rewrite app_length; reflexivity).
    destruct (Nat.eq_dec (hcs_pos hdr) (length pre)) as [He|He].
    - rewrite He in *. unfold byte_at in *. subst hdr hdr'.
      rewrite app_nth2, Nat.sub_diag in H3 by lia. rewrite app_nth2, Nat.sub_diag by lia. cbn [nth] in *.
      rewrite firstn_exact in H3 by reflexivity. rewrite firstn_exact by reflexivity. congruence.
    - assert (exists k, hcs_pos hdr = length pre + S k)%nat as (k & Hk) by (exists (hcs_pos hdr - length pre - 1)%nat; lia).
      assert (byte_at hdr' (hcs_pos hdr) = byte_at hdr (hcs_pos hdr)) as ->.
      { rewrite Hk. unfold byte_at. subst hdr hdr'. rewrite !app_nth2 by lia.
        replace (length pre + S k - length pre)%nat with (S k) by lia. reflexivity. }
      rewrite H3. rewrite Hk. subst hdr hdr'. rewrite !firstn_app.
      rewrite !firstn_all2 by lia. replace (length pre + S k - length pre)%nat with (S k) by lia.
      cbn [firstn]. apply crc8_change; try assumption. apply bytes_ok_firstn; exact Hq. }
  rewrite (proj2 (N.eqb_neq _ _) Hne). reflexivity.
Qed.

(** ** C05: what a wrong body checksum is answered with *)
Lemma wrong_body_crc p hdr body rest spare f :
  bytes_ok (hdr ++ body ++ rest) = true -> std_packet hdr body rest -> rest <> [] ->
  blen hdr + blen body < 2 ^ 16 ->
  byte_at hdr (hcs_pos hdr) = crc8 (firstn (hcs_pos hdr) hdr) ->
  (byte_at hdr 9 = 0 \/ byte_at hdr 9 = 1) ->
  frame_decode (byte_at hdr 9) body = Ok f ->
  word_at rest 0 <> crc16 body ->
  snd (pkg_decode p (mkSlice (hdr ++ body ++ rest) spare)) = DRet 137 true.
Proof.
  intros Hok Hstd Hrest Hlim Hcs Hpt Hfd Hcrc.
  pose proof (std_len _ _ _ Hstd) as HL. pose proof (std_hl_u8 _ _ _ Hstd) as Hu.
  destruct Hstd as (Hp & Hhl & Hfdl).
  assert (0 < length rest)%nat as Hr0 by (destruct rest; [congruence|cbn; lia]).
  rewrite decode_out by exact Hok. unfold outcome. cbv zeta. unfold sfrcs_of.
  rewrite frame_read_of.
  2: { rewrite frame_pos_app, decl_fdl_app by lia. rewrite <- Hp, Hfdl. unfold blen. rewrite !app_length. lia. }
  unfold frame_of.
  rewrite frame_pos_app, decl_hl_app, decl_fdl_app, hcs_pos_app by lia.
  rewrite Hu. rewrite !byte_at_app by (unfold frame_pos in Hp; lia).
  rewrite <- Hp, Hhl, Hfdl.
  rewrite (proj2 (Nat.leb_gt _ _)) by (rewrite !app_length; unfold frame_pos in Hp; lia).
  rewrite (proj2 (N.ltb_ge _ _)) by (rewrite !blen_app; unfold blen; lia).
  assert (area ((hdr ++ body ++ rest) ++ spare) 0 (blen hdr - 1) = firstn (hcs_pos hdr) hdr) as ->.
  { rewrite <- app_assoc. rewrite area_app by lia. rewrite area_0. f_equal. unfold frame_pos in Hp. unfold blen. lia. }
  rewrite (proj2 (N.eqb_eq _ _) Hcs). cbn [negb].
  rewrite (proj2 (Nat.leb_gt _ _)) by (rewrite !app_length; lia).
  replace (negb ((byte_at hdr 9 =? 1) || (byte_at hdr 9 =? 0))) with false by lia.
  rewrite !to_nat_blen. rewrite skipn_exact, firstn_exact by reflexivity.
  rewrite Hfd. cbn [ares].
  rewrite (proj2 (Nat.leb_gt _ _)) by (rewrite !app_length; unfold blen; lia).
  rewrite (proj2 (N.leb_gt _ _) Hlim). rewrite (proj2 (N.ltb_ge _ _)) by (rewrite !blen_app; unfold blen; lia).
  cbn [orb].
  assert (word_at (hdr ++ body ++ rest) (length hdr + length body) = word_at rest 0) as ->.
  { unfold word_at. rewrite app_assoc. rewrite <- app_length.
    rewrite !app_nth2 by lia. repeat f_equal; lia. }
  rewrite <- !app_assoc. rewrite area_split. rewrite (proj2 (N.eqb_neq _ _) Hcrc). reflexivity.
Qed.


Lemma panic_iff p data spare : bytes_ok data = true ->
  (snd (pkg_decode p (mkSlice data spare)) = DPanic <-> panics data spare).
Proof.
  intros Hb. rewrite decode_out by exact Hb. unfold panics, outcome. cbv zeta.
  destruct (Nat.leb_spec (length data) (hcs_pos data)) as [Hs|Hs].
  { split; [discriminate|]. intros (H & _). lia. }
  destruct (N.ltb_spec (blen (data ++ spare)) (u8 (decl_hl data + 255))) as [H1|H1].
  { split; auto. }
  split.
  - intros H. split; [exact Hs|]. right. split; [exact H1|].
    destruct (negb _) eqn:H2 in H; [discriminate|]. apply negb_false_iff, N.eqb_eq in H2.
    destruct (Nat.leb_spec (length data) (frame_pos data)) as [|H3]; [discriminate|].
    destruct (negb ((byte_at data 9 =? 1) || (byte_at data 9 =? 0))) eqn:H4; [discriminate|].
    pose proof (frame_decode_returns (byte_at data 9) (frame_read data)) as Hret.
    destruct (frame_decode (byte_at data 9) (frame_read data)) as [f| | |] eqn:Hf;
      cbn [ares] in H; try discriminate; try contradiction.
    destruct (Nat.leb_spec (length data) (frame_pos data + N.to_nat (decl_fdl data))) as [|H5]; [discriminate|].
    destruct (_ || _) eqn:H6 in H;
      [|match type of H with (if ?c then _ else _) = _ => destruct c end; discriminate].
    rewrite frame_read_of in Hf by lia. repeat split; try assumption; [lia|eauto|].
    apply orb_true_iff in H6. destruct H6 as [H6|H6]; [left|right]; lia.
  - intros (_ & [H|(_ & H2 & H3 & H4 & (f & H5) & H6)]); [lia|].
    rewrite (proj2 (N.eqb_eq _ _) H2). cbn [negb].
    rewrite (proj2 (Nat.leb_gt _ _)) by lia.
    replace (negb ((byte_at data 9 =? 1) || (byte_at data 9 =? 0))) with false by lia.
    rewrite frame_read_of by lia. rewrite H5. cbn [ares].
    rewrite (proj2 (Nat.leb_gt _ _)) by lia.
    replace (_ || _) with true by lia. reflexivity.
Qed.

Lemma decode_no_fuel p data spare : bytes_ok data = true -> snd (pkg_decode p (mkSlice data spare)) <> DFuel.
Proof.
  intros Hb. rewrite decode_out by exact Hb. unfold outcome. cbv zeta. intros Ho.
  repeat match type of Ho with context [if ?c then _ else _] => destruct c; try discriminate Ho end.
  all: pose proof (frame_decode_returns (byte_at data 9) (frame_read data)) as Hret.
  all: destruct (frame_decode (byte_at data 9) (frame_read data)); cbn [ares] in Ho; try discriminate Ho; try contradiction.
  all: repeat match type of Ho with context [if ?c then _ else _] => destruct c; try discriminate Ho end.
Qed.

(** A packet with the standard header length, or any header length between 1
    and its real one, never panics when it is below the length limit. *)
Lemma no_panic p data spare : bytes_ok data = true ->
  1 <= decl_hl data <= std_hl data -> decl_hl data + decl_fdl data < 2 ^ 16 ->
  snd (pkg_decode p (mkSlice data spare)) <> DPanic.
Proof.
  intros Hb Hhl Hlim H. apply panic_iff in H; [|exact Hb]. destruct H as (H1 & H2). cbv zeta in H2.
  unfold std_hl in Hhl. pose proof (hcs_pos_le data). unfold frame_pos in *.
  assert (u8 (decl_hl data + 255) = decl_hl data - 1) as Hu.
  { unfold u8. replace (decl_hl data + 255) with (decl_hl data - 1 + 1 * 256) by lia.
    rewrite N.mod_add by lia. apply N.mod_small. lia. }
  rewrite Hu in H2. rewrite blen_app in H2. unfold blen in H2.
  destruct H2 as [H2|(_ & _ & H3 & _ & _ & [H4|H4])]; lia.
Qed.

(** ** C10: prefixes *)
Lemma accepted_prefix_len p data spare : bytes_ok data = true -> complete data ->
  length data = (frame_pos data + N.to_nat (decl_fdl data) + 2)%nat ->
  forall k p' e, (k < length data)%nat ->
  pkg_decode p (mkSlice (firstn k data) spare) = (p', DRet 0 e) ->
  k = (length data - 1)%nat.
Proof.
  intros Hb Hc Hlen k p' e Hk Hd.
  assert (bytes_ok (firstn k data) = true) as Hb' by (apply bytes_ok_firstn; exact Hb).
  apply accept_iff in Hd; [|exact Hb']. destruct Hd as (_ & f & (H1 & _) & _).
  rewrite firstn_length in H1. pose proof (hcs_pos_ge (firstn k data)). unfold frame_pos at 1 in H1.
  assert (10 <= length (firstn k data))%nat as H10 by (rewrite firstn_length; lia).
  rewrite <- (firstn_skipn k data) in Hlen at 2 3.
  rewrite frame_pos_app, decl_fdl_app in Hlen by exact H10. unfold frame_pos in Hlen. lia.
Qed.

Lemma prefix_partial p q hdr body a b spare spare' p' :
  bytes_ok (hdr ++ body ++ [a; b]) = true -> std_packet hdr body [a; b] ->
  pkg_decode p (mkSlice (hdr ++ body ++ [a; b]) spare) = (p', DRet 0 false) ->
  forall k q' e, (k < length (hdr ++ body ++ [a; b]))%nat ->
  pkg_decode q (mkSlice (firstn k (hdr ++ body ++ [a; b])) spare') = (q', DRet 0 e) ->
  b = 0 /\ firstn k (hdr ++ body ++ [a; b]) = hdr ++ body ++ [a] /\ (p = q -> q' = p').
Proof.
  intros Hb Hstd Hd k q' e Hk Hq. pose proof (std_len _ _ _ Hstd) as HL.
  assert (length (hdr ++ body ++ [a; b]) =
    (frame_pos (hdr ++ body ++ [a; b]) + N.to_nat (decl_fdl (hdr ++ body ++ [a; b])) + 2)%nat) as Hlen.
  { rewrite frame_pos_app, decl_fdl_app by lia. destruct Hstd as (Hs1 & _ & Hs3). rewrite <- Hs1, Hs3.
    unfold blen. rewrite !app_length. cbn [length]. lia. }
  assert (k = (length (hdr ++ body ++ [a; b]) - 1)%nat) as Hkk.
  { eapply accepted_prefix_len; try eassumption. unfold complete. lia. }
  assert (firstn k (hdr ++ body ++ [a; b]) = hdr ++ body ++ [a]) as Hf.
  { rewrite Hkk. change [a; b] with ([a] ++ [b]). rewrite !app_assoc. rewrite app_length at 1. cbn [length].
    rewrite firstn_app. rewrite firstn_all2 by lia.
    replace (length ((hdr ++ body) ++ [a]) + 1 - 1 - length ((hdr ++ body) ++ [a]))%nat with 0%nat by lia.
    cbn [firstn]. rewrite app_nil_r. reflexivity. }
  rewrite Hf in *.
  assert (bytes_ok (hdr ++ body ++ [a]) = true) as Hb'.
  { rewrite !bytes_ok_app in *. cbn [bytes_ok forallb] in *. rewrite !andb_true_iff in *. tauto. }
  apply accept_iff in Hd; [|exact Hb]. apply accept_iff in Hq; [|exact Hb'].
  destruct Hd as (_ & f & Ha & ->). destruct Hq as (_ & g & Ha' & ->).
  apply std_accept in Ha; [|exact Hstd]. apply std_accept in Ha'; [|exact Hstd].
  destruct Ha as (_ & _ & _ & _ & Hff & Hw). destruct Ha' as (_ & _ & _ & _ & Hg & Hw').
  unfold word_at in Hw, Hw'. cbn [nth] in Hw, Hw'.
  split; [lia|]. split; [reflexivity|]. intros ->.
  assert (f = g) as -> by congruence. unfold final_of.
  assert (b = 0) as -> by lia.
  assert (forall (i : nat) (x : N), (i < length (hdr ++ body ++ [a]))%nat -> nth i (hdr ++ body ++ [a; 0]) 0 = nth i (hdr ++ body ++ [a]) 0) as Hnth.
  { intros i x Hi. change [a; 0] with ([a] ++ [0]). rewrite !app_assoc.
    apply app_nth1. rewrite <- !app_assoc. exact Hi. }
  unfold sfrcs_of, hdr_of, byte_at, word_at. 
  rewrite !frame_pos_app, !decl_fdl_app, !hcs_pos_app, !routed_app by lia.
  assert (forall i, nth i (hdr ++ body ++ [a; 0]) 0 = nth i (hdr ++ body ++ [a]) 0) as Hall.
  { intros i. destruct (Nat.lt_ge_cases i (length (hdr ++ body ++ [a]))) as [Hi|Hi]; [apply Hnth; assumption|].
    rewrite (nth_overflow _ _ Hi). change [a; 0] with ([a] ++ [0]). rewrite !app_assoc.
    rewrite app_nth2 by (rewrite <- !app_assoc; exact Hi).
    destruct (i - length ((hdr ++ body) ++ [a]))%nat as [|[|]]; reflexivity. }
  rewrite !Hall. reflexivity.
Qed.

(** ** C11: bytes after the packet *)
Lemma suffix_ignored2 p data suffix spare spare' : bytes_ok data = true -> bytes_ok suffix = true ->
  complete data -> 1 <= decl_hl data <= std_hl data + 2 ->
  pkg_decode p (mkSlice (data ++ suffix) spare') = pkg_decode p (mkSlice data spare).
Proof.
  intros Hb Hs Hc Hhl. pose proof (hcs_pos_ge data). pose proof (hcs_pos_le data).
  unfold complete in Hc. unfold std_hl, frame_pos in *.
  rewrite (decode_long p (data ++ suffix)).
  2: { rewrite bytes_ok_app, Hb; exact Hs. }
  2: { rewrite hcs_pos_app by lia. rewrite app_length. lia. }
  rewrite decode_long; [|exact Hb|lia].
  assert (u8 (decl_hl data + 255) = decl_hl data - 1) as Hu.
  { unfold u8. replace (decl_hl data + 255) with (decl_hl data - 1 + 1 * 256) by lia.
    rewrite N.mod_add by lia. apply N.mod_small. lia. }
  unfold decode_fun. cbv zeta. rewrite !decl_hl_app, !decl_fdl_app, !hcs_pos_app by lia.
  rewrite Hu. rewrite !byte_at_app by lia.
  unfold frame_pos at 1 2. rewrite !hcs_pos_app by lia.
  rewrite !(proj2 (N.ltb_ge _ (decl_hl data - 1))) by (rewrite !blen_app; unfold blen; lia).
  rewrite <- !app_assoc. rewrite !(area_app data) by (unfold blen; lia).
  rewrite !(proj2 (Nat.leb_gt _ (S (hcs_pos data)))) by (rewrite ?app_length; lia).
  rewrite !(proj2 (Nat.leb_gt _ (S (hcs_pos data) + _))) by (rewrite ?app_length; lia).
  rewrite !(proj2 (N.ltb_ge _ (decl_hl data + decl_fdl data))) by (rewrite !blen_app; unfold blen; lia).
  rewrite !frame_read_of by (unfold frame_pos; rewrite ?hcs_pos_app, ?decl_fdl_app, ?app_length by lia; lia).
  assert (frame_of (data ++ suffix) = frame_of data) as ->.
  { unfold frame_of. rewrite frame_pos_app, decl_fdl_app by lia. rewrite skipn_app, firstn_app, skipn_length.
    unfold frame_pos. replace (N.to_nat (decl_fdl data) - (length data - S (hcs_pos data)))%nat with 0%nat by lia.
    cbn [firstn]. apply app_nil_r. }
  assert (sfrcs_of (data ++ suffix) = sfrcs_of data) as Hsf.
  { unfold sfrcs_of. rewrite frame_pos_app, decl_fdl_app by lia. apply word_at_app. unfold frame_pos. lia. }
  rewrite Hsf.
  assert (hdr_of p (data ++ suffix) = hdr_of p data) as Hh.
  { unfold hdr_of. rewrite routed_app by lia. rewrite !byte_at_app, !word_at_app by lia.
    destruct (routed data) eqn:Hr; [|reflexivity].
    assert (hcs_pos data = 15%nat) by (unfold hcs_pos; rewrite Hr; reflexivity).
    rewrite !word_at_app, byte_at_app by lia. reflexivity. }
  assert (hcs_of p (data ++ suffix) = hcs_of p data) as Hh2.
  { unfold hcs_of. rewrite Hh. rewrite hcs_pos_app by lia. rewrite byte_at_app by lia. reflexivity. }
  assert (forall f, final_of p (data ++ suffix) f = final_of p data f) as Hf.
  { intros f. unfold final_of. rewrite Hh, Hsf. rewrite hcs_pos_app by lia. rewrite byte_at_app by lia. reflexivity. }
  rewrite Hh2. destruct (frame_decode _ _); rewrite ?Hf; try reflexivity.
Qed.
Lemma suffix_ignored p data suffix spare spare' : bytes_ok data = true -> bytes_ok suffix = true ->
  complete data -> 1 <= decl_hl data <= std_hl data ->
  pkg_decode p (mkSlice (data ++ suffix) spare') = pkg_decode p (mkSlice data spare).
Proof. intros. apply suffix_ignored2; try assumption. lia. Qed.

(** ** C12: what a used receiver can leave behind *)
Lemma receiver_outcome p q data spare : bytes_ok data = true ->
  snd (pkg_decode p (mkSlice data spare)) = snd (pkg_decode q (mkSlice data spare)).
Proof. intros Hb. rewrite !decode_out by exact Hb. reflexivity. Qed.

Lemma receiver_partial p q data spare p' q' : bytes_ok data = true ->
  pkg_decode p (mkSlice data spare) = (p', DRet 0 false) ->
  pkg_decode q (mkSlice data spare) = (q', DRet 0 false) ->
  set_PRA 0 (set_RCA 0 (set_TTL 0 p')) = set_PRA 0 (set_RCA 0 (set_TTL 0 q')) /\
  (routed data = true \/ (pPRA p = pPRA q /\ pRCA p = pRCA q /\ pTTL p = pTTL q) -> p' = q').
Proof.
  intros Hb Hp Hq. apply accept_iff in Hp, Hq; try exact Hb.
  destruct Hp as (_ & f & Hf & ->). destruct Hq as (_ & g & Hg & ->).
  rewrite (accept_unique _ _ _ _ Hf Hg). unfold final_of, hdr_of. split.
  - reflexivity.
  - intros [->|(-> & -> & ->)]; reflexivity.
Qed.

Lemma receiver_kept p p' data spare : bytes_ok data = true -> routed data = false ->
  pkg_decode p (mkSlice data spare) = (p', DRet 0 false) ->
  pPRA p' = pPRA p /\ pRCA p' = pRCA p /\ pTTL p' = pTTL p.
Proof.
  intros Hb Hr Hp. apply accept_iff in Hp; [|exact Hb]. destruct Hp as (_ & f & _ & ->).
  unfold final_of, hdr_of. rewrite Hr. repeat split.
Qed.

End PkgFacts2.
