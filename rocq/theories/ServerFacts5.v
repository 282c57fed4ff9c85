(** * ServerFacts5: undecodable frames, the result-code packet, replies sent
    back to a gate. *)
From Verif Require Import GoBase Crc Float64 SubRecords Records Package Storage Server
  Spec_Bits Spec_Wf Spec_Rec Spec_Pkg Spec_Server BaseFacts SubFacts RecFacts DecFacts DecWf DecWf2 EncOk CrcFacts
  PkgFacts PkgFacts2 PkgFacts3 ServerFacts ServerFacts2 ServerFacts3.
From Coq Require Import Lia ZifyBool ZifyN ZifyNat.

Section ServerFacts5.
Context {E : go_env}.

(** A frame that cannot be decoded is reported with EGTS_PC_DECRYPT_ERROR. *)
Lemma bad_frame_code p hdr body rest spare :
  bytes_ok (hdr ++ body ++ rest) = true -> std_packet hdr body rest -> body ++ rest <> [] ->
  byte_at hdr (hcs_pos hdr) = crc8 (firstn (hcs_pos hdr) hdr) ->
  (byte_at hdr 9 = 0 \/ byte_at hdr 9 = 1) ->
  frame_decode (byte_at hdr 9) body = Err ->
  snd (pkg_decode p (mkSlice (hdr ++ body ++ rest) spare)) = DRet 129 true.
Proof.
  intros Hok Hstd Hrest Hcs Hpt Hfd.
  pose proof (std_len _ _ _ Hstd) as HL. pose proof (std_hl_u8 _ _ _ Hstd) as Hu.
  destruct Hstd as (Hp & Hhl & Hfdl).
  assert (0 < length (body ++ rest))%nat as Hr0 by (destruct (body ++ rest); [congruence|cbn; lia]).
  rewrite app_length in Hr0.
  rewrite decode_out by exact Hok. unfold outcome. cbv zeta. unfold sfrcs_of.
  rewrite frame_read_of.
  2: { rewrite frame_pos_app, decl_fdl_app by lia. rewrite <- Hp, Hfdl. unfold blen. rewrite !app_length. lia. }
  unfold frame_of.
  rewrite frame_pos_app, decl_hl_app, decl_fdl_app, hcs_pos_app by lia.
  rewrite Hu. rewrite !byte_at_app by (unfold frame_pos in Hp; lia).
  rewrite <- Hp, Hhl, Hfdl.
  rewrite (proj2 (Nat.leb_gt _ _)) by (rewrite !app_length; unfold frame_pos in Hp; lia).
  rewrite (proj2 (N.ltb_ge _ _)) by (rewrite !blen_app; unfold blen; lia).
  assert (area ((hdr ++ body ++ rest) ++ spare) 0 (blen hdr - 1) = firstn (hcs_pos hdr) hdr) as ->.
  { rewrite <- app_assoc. rewrite area_app by lia. rewrite area_0. f_equal. unfold frame_pos in Hp. unfold blen. lia. }
  rewrite (proj2 (N.eqb_eq _ _) Hcs). cbn [negb].
  rewrite (proj2 (Nat.leb_gt _ _)) by (rewrite !app_length; lia).
  replace (negb ((byte_at hdr 9 =? 1) || (byte_at hdr 9 =? 0))) with false by lia.
  rewrite !to_nat_blen. rewrite skipn_exact, firstn_exact by reflexivity.
  rewrite Hfd. reflexivity.
Qed.

(** ** The packet answering credentials *)
Definition rescode_body : bytes := [4; 0; 1; 0; 32; 1; 1; 9; 1; 0; 0].

Lemma rescode_bytes pid : pid < 2 ^ 16 ->
  exists hdr, rescode_pkg pid = (hdr ++ [crc8 hdr]) ++ rescode_body ++ le_enc 2 (crc16 rescode_body) /\
    length hdr = 10%nat /\ bytes_ok hdr = true /\
    routed (hdr ++ [crc8 hdr]) = false /\ byte_at (hdr ++ [crc8 hdr]) 0 = 1 /\
    byte_at (hdr ++ [crc8 hdr]) 3 = 11 /\ word_at (hdr ++ [crc8 hdr]) 5 = 11 /\
    word_at (hdr ++ [crc8 hdr]) 7 = (pid + 1) mod 65536 /\ byte_at (hdr ++ [crc8 hdr]) 9 = 0.
Proof.
  intros Hp. set (f := FSds [reply_sdr 4 1 [{| SRT := 9; SRL := 1; SRD := SRResult 0 |}]]).
  assert (create_sr_result_code pid 0 = snd (pkg_encode (reply_pkg 11 pid f))) as Hc by reflexivity.
  set (p := reply_pkg 11 pid f) in *.
  exists (enc_hdr p 0 11 11).
  assert (frame_encode (pSFRD p) = Ok rescode_body) as Hfe by reflexivity.
  assert (pkg_encode p = (set_FDL (u16 (blen rescode_body)) (set_HL (eff_hl p) p),
     Ok ((enc_hdr p 0 11 11 ++ [crc8 (enc_hdr p 0 11 11)]) ++ rescode_body ++ le_enc 2 (crc16 rescode_body)))) as He.
  { apply pkg_encode_ok. exists 0, rescode_body. split; [reflexivity|]. split; [exact Hfe|]. split; [reflexivity|].
    rewrite <- app_assoc. reflexivity. }
  assert (u16 (pid + 1) < 2 ^ 16) as Hpid by (apply N.mod_lt; discriminate).
  pose proof (enc_hdr_fields p 0 11 11 [crc8 (enc_hdr p 0 11 11)] eq_refl eq_refl eq_refl Hpid ltac:(intros H; discriminate H)) as H.
  cbv zeta in H. destruct H as (H1 & H2 & H3 & _ & _ & H4 & _ & H5 & H6 & H7 & _).
  split; [|split; [exact H2|]].
  - unfold rescode_pkg. rewrite Hc, He. reflexivity.
  - split; [|repeat (split; [assumption|]); exact H7].
    unfold enc_hdr. rewrite !bytes_ok_app, !le_enc_ok. reflexivity.
Qed.

Lemma rescode_framed pid : pid < 2 ^ 16 -> framed (rescode_pkg pid) /\ survives (rescode_pkg pid).
Proof.
  intros Hp. destruct (rescode_bytes pid Hp) as (hdr & Hb & Hl & Hok & Hr & H0 & H3 & H5 & H7 & H9).
  assert (bytes_ok (rescode_pkg pid) = true) as Hbok.
  { rewrite Hb, !bytes_ok_app, Hok, le_enc_ok. rewrite bytes_ok_single by (apply crc8_lt; exact Hok). reflexivity. }
  set (H := hdr ++ [crc8 hdr]) in *.
  assert (length H = 11%nat) as HlH by (subst H; rewrite app_length, Hl; reflexivity).
  assert (framed (rescode_pkg pid)) as Hf.
  { unfold framed. split; [exact Hbok|]. rewrite Hb. unfold wire_len.
    rewrite byte_at_app, decl_hl_app, decl_fdl_app by lia. unfold decl_hl, decl_fdl. rewrite H0, H3, H5.
    split; [reflexivity|]. rewrite !blen_app. unfold blen at 1. rewrite HlH. rewrite blen_le_enc. split; [reflexivity|].
    cbn. lia. }
  split; [exact Hf|]. apply std_survives; [exact Hf| |]; rewrite Hb, ?decl_hl_app, ?decl_fdl_app by lia;
    unfold decl_hl, decl_fdl; rewrite H3, ?H5; [lia|]. reflexivity.
Qed.

Lemma rescode_rejected pid p spare : pid < 2 ^ 16 ->
  snd (pkg_decode p (mkSlice (rescode_pkg pid) spare)) = DRet 129 true.
Proof.
  intros Hp. destruct (rescode_framed pid Hp) as [(Hbok & _) _].
  destruct (rescode_bytes pid Hp) as (hdr & Hb & Hl & Hok & Hr & H0 & H3 & H5 & H7 & H9).
  rewrite Hb in *. set (H := hdr ++ [crc8 hdr]) in *.
  assert (length H = 11%nat) as HlH by (subst H; rewrite app_length, Hl; reflexivity).
  assert (hcs_pos H = 10%nat) as Hc by (unfold hcs_pos; rewrite Hr; reflexivity).
  apply bad_frame_code; [exact Hbok| |discriminate| | |].
  - unfold std_packet, frame_pos. rewrite Hc, HlH. split; [reflexivity|].
    unfold decl_hl, decl_fdl. rewrite H3, H5. unfold blen. rewrite HlH. split; reflexivity.
  - rewrite Hc. subst H. unfold byte_at. rewrite app_nth2 by lia. rewrite Hl. cbn [Nat.sub nth].
    rewrite firstn_exact by (rewrite Hl; reflexivity). reflexivity.
  - rewrite H9. auto.
  - rewrite H9. reflexivity.
Qed.

(** ** Replies fed back to a gate *)
Lemma ack_no_reply b pid code svc nums spare : is_ack b pid code svc nums -> process (mkSlice b spare) = PActs [].
Proof.
  intros (Hf & _ & p & r & Hd & Hpt & _). unfold process. rewrite (Hd spare), Hpt. reflexivity.
Qed.
Lemma is_ack_survives b pid code svc nums : is_ack b pid code svc nums -> survives b.
Proof. intros (Hf & _ & p & r & Hd & _) spare. rewrite (Hd spare). discriminate. Qed.

Lemma rescode_reply pid spare : pid < 2 ^ 16 ->
  exists ack, process (mkSlice (rescode_pkg pid) spare) = PActs [AWrite ack] /\ is_ack ack ((pid + 1) mod 65536) 129 0 [].
Proof.
  intros Hp. destruct (rescode_framed pid Hp) as [Hf Hs].
  destruct (process_spec _ spare Hf Hs) as (acts & Hacts & p & code & err & Hd & Hpid & Herr & _).
  pose proof (rescode_rejected pid pkg0 spare Hp) as Hr. rewrite (Hd spare) in Hr. cbn in Hr. injection Hr as -> ->.
  destruct (Herr eq_refl) as (_ & ack & -> & Hi). exists ack. split; [exact Hacts|]. rewrite Hpid in Hi.
  destruct (rescode_bytes pid Hp) as (hdr & Hb & Hl & _ & _ & _ & _ & _ & H7 & _).
  rewrite Hb in Hi. rewrite word_at_app in Hi by (rewrite app_length; cbn [length]; lia). rewrite H7 in Hi. exact Hi.
Qed.


(** Every reply of a gate, given to a gate, causes nothing or one negative
    acknowledgement, which in turn causes nothing. *)
Lemma no_storm b acts r : framed b -> packet_actions b acts -> In r (writes acts) ->
  framed r /\ survives r /\
  forall spare, exists acts1, process (mkSlice r spare) = PActs acts1 /\
    (forall n, ~ In (ASave n) acts1) /\
    forall r1, In r1 (writes acts1) -> framed r1 /\ survives r1 /\
      forall spare1, process (mkSlice r1 spare1) = PActs [].
Proof.
  intros Hfb (p & code & err & Hd & Hpid & Herr & Hok) Hin.
  assert (forall pid c svc nums, is_ack r pid c svc nums -> framed r /\ survives r /\
    forall spare, exists acts1, process (mkSlice r spare) = PActs acts1 /\
    (forall n, ~ In (ASave n) acts1) /\
    forall r1, In r1 (writes acts1) -> framed r1 /\ survives r1 /\
      forall spare1, process (mkSlice r1 spare1) = PActs []) as Hack.
  { intros pid c svc nums Hi. split; [apply Hi|]. split; [eapply is_ack_survives, Hi|].
    intros spare. exists []. split; [eapply ack_no_reply, Hi|]. split; [intros n []|intros r1 []]. }
  destruct err.
  - destruct (Herr eq_refl) as (_ & ack & -> & Hi). cbn in Hin. destruct Hin as [<-|[]]. eapply Hack, Hi.
  - destruct (Hok eq_refl) as (-> & [(_ & -> & _)|(Hpt & l & Hsf & Happ)]); [contradiction|].
    unfold app_actions in Happ. destruct (confirms l); [subst acts; contradiction|].
    destruct Happ as (rec & ack & -> & _ & _ & _ & _ & _ & _ & _ & _ & _ & svc & Hi & _).
    rewrite <- rescode_eq in Hin.
    assert (r = ack \/ r = rescode_pkg (pPID p)) as [->| ->].
    { revert Hin. generalize (rescode_pkg (pPID p)). intros rc Hin. destruct (positions l); cbn in Hin; destruct (credentials l); cbn in Hin; intuition congruence. }
    + eapply Hack, Hi.
    + assert (pPID p < 2 ^ 16) as Hp by (rewrite Hpid; apply word_at_bound, Hfb).
      destruct (rescode_framed _ Hp) as [Hf Hs]. split; [exact Hf|]. split; [exact Hs|].
      intros spare. destruct (rescode_reply (pPID p) spare Hp) as (ack' & Hpr & Hi').
      exists [AWrite ack']. split; [exact Hpr|]. split; [intros n [H|[]]; discriminate|].
      intros r1 [<-|[]]. split; [apply Hi'|]. split; [eapply is_ack_survives, Hi'|].
      intros spare1. eapply ack_no_reply, Hi'.
Qed.
End ServerFacts5.
