(** * ServerFacts: the receiver's handling of one packet. *)
From Verif Require Import GoBase Crc Float64 SubRecords Records Package Storage Server
  Spec_Bits Spec_Wf Spec_Rec Spec_Pkg Spec_Server BaseFacts SubFacts RecFacts DecFacts DecWf DecWf2 EncOk
  PkgFacts PkgFacts2 PkgFacts3.
From Coq Require Import Lia ZifyBool ZifyN ZifyNat.

Section ServerFacts.
Context {E : go_env}.

(** ** Replies *)
Lemma blen_le_enc k v : blen (le_enc k v) = N.of_nat k.
Proof. unfold blen. rewrite length_le_enc. reflexivity. Qed.

Lemma confirmation_wf n : n < 2 ^ 16 -> wf_rd (confirmation n).
Proof.
  intros H. split; [|split].
  - cbn. split; [exact H|reflexivity].
  - left. reflexivity.
  - exists (le_enc 2 n ++ [0]). split; [reflexivity|]. split; [reflexivity|right; reflexivity].
Qed.

Lemma rd_encode_conf n : rd_encode (confirmation n) = Ok ([0] ++ le_enc 2 3 ++ le_enc 2 n ++ [0]).
Proof. reflexivity. Qed.

Lemma rds_encode_confs nums : exists b, rds_encode (map confirmation nums) = Ok b /\ blen b = 6 * N.of_nat (length nums).
Proof.
  induction nums as [|n nums (b & Hb & Hl)]; [exists []; split; reflexivity|].
  cbn [map rds_encode]. rewrite rd_encode_conf. cbn [bind]. rewrite Hb. cbn [bind].
  eexists. split; [reflexivity|]. rewrite !blen_app, Hl. rewrite !blen_le_enc. unfold blen. cbn [length]. lia.
Qed.

Lemma filled_confs nums l : Forall2 filled_rd (map confirmation nums) l -> l = map confirmation nums.
Proof.
  revert l. induction nums as [|n nums IH]; intros l H; inversion H; subst; [reflexivity|].
  cbn [map]. f_equal; [|apply IH; assumption].
  destruct H2 as (Ht & Hd & b & Hb & Hl). destruct y as [t len d]. cbn in Ht, Hd, Hl.
  cbn in Hb. apply Ok_inj in Hb. subst. reflexivity.
Qed.

Lemma reply_sdr_wf svc nums : svc < 256 -> Forall (fun n => n < 2 ^ 16) nums ->
  N.of_nat (length nums) <= 9362 ->
  exists b, rds_encode (map confirmation nums) = Ok b /\ blen b = 6 * N.of_nat (length nums) /\
  wf_sdr (reply_sdr (blen b) svc (map confirmation nums)) /\
  exists b', sdr_encode (reply_sdr (blen b) svc (map confirmation nums)) = Ok b' /\ blen b' = 7 + blen b.
Proof.
  intros Hs Hn Hlen. destruct (rds_encode_confs nums) as (b & Hb & Hl). exists b. split; [exact Hb|].
  split; [exact Hl|]. split.
  - unfold wf_sdr, reply_sdr. cbn [RL RN SSOD RSOD GRP RPP TMFE EVFE OBFE OID EVID TM SST RST RD].
    split; [reflexivity|]. split; [exact Hs|]. split; [exact Hs|].
    repeat (split; [reflexivity|]). split.
    + apply Forall_forall. intros rd Hin. apply in_map_iff in Hin. destruct Hin as (n & <- & Hin).
      apply confirmation_wf. rewrite Forall_forall in Hn. apply Hn, Hin.
    + exists b. split; [exact Hb|]. split; [rewrite Hl; change (2 ^ 16) with 65536; lia|right; reflexivity].
  - unfold sdr_encode, reply_sdr. cbn [RL RN SSOD RSOD GRP RPP TMFE EVFE OBFE OID EVID TM SST RST RD].
    rewrite Hb. cbn [bind].
    set (fl := parse8 _). assert (exists v, fl = Ok v) as [v ->] by (eexists; reflexivity). cbn [bind].
    eexists. split; [reflexivity|]. unfold opt_w. change (is1 s0) with false. cbn iota.
    rewrite !blen_app, !blen_le_enc. unfold blen. cbn [length]. lia.
Qed.

Lemma ptr_length_ok r b : ptr_encode r = Ok b -> ptr_length r = Ok (u16 (blen b)).
Proof. intros H. unfold ptr_length. rewrite H. apply length_of_Ok. Qed.

Lemma reply_wf fdl pid r b : wf_ptr r -> ptr_encode r = Ok b -> 0 < blen b -> blen b < 65525 ->
  wf_pkg (reply_pkg fdl pid (FResp r)).
Proof.
  intros Hw Hb H0 H1. unfold wf_pkg, reply_pkg.
  cbn [pPRV pSKID pPRF pRTE pENA pCMP pPR pHL pHE pFDL pPID pPT pPRA pRCA pTTL pHCS pSFRD pSFRCS].
  repeat (split; [reflexivity|]).
  split; [apply N.mod_lt; discriminate|].
  split; [right; reflexivity|]. split; [repeat split; reflexivity|].
  exists (FResp r). split; [reflexivity|]. split; [exact Hw|]. split; [reflexivity|].
  exists b. split; [exact Hb|]. split; [intros ->; discriminate H0|].
  change (is1 s0) with false. change (2 ^ 16) with 65536. cbn iota. lia.
Qed.

Lemma std_wire hdr c body : length hdr = 10%nat -> blen body < 65525 -> nth 0 hdr 0 = 1 -> nth 3 hdr 0 = 11 -> 
  word_at hdr 5 = blen body -> 0 < blen body ->
  bytes_ok (hdr ++ [c] ++ body ++ le_enc 2 (crc16 body)) = true ->
  framed (hdr ++ [c] ++ body ++ le_enc 2 (crc16 body)).
Proof.
  intros Hl Hb H0 H3 Hf Hp Hok. unfold framed. split; [exact Hok|].
  assert (10 <= length hdr)%nat as Hl' by lia.
  split; [rewrite byte_at_app by lia; exact H0|].
  unfold wire_len. rewrite decl_hl_app, decl_fdl_app by exact Hl'.
  unfold decl_hl, decl_fdl. rewrite Hf. unfold byte_at. rewrite H3.
  rewrite (proj2 (N.ltb_lt 0 _)) by exact Hp.
  rewrite !blen_app, blen_le_enc. unfold blen at 1 2. rewrite Hl. cbn [length]. lia.
Qed.

Lemma reply_ok fdl pid r b : wf_ptr r -> ptr_encode r = Ok b -> 0 < blen b -> blen b < 65525 ->
  exists out, snd (pkg_encode (reply_pkg fdl pid (FResp r))) = Ok out /\ framed out /\ blen out = 13 + blen b /\
  exists p r', decodes_to out p /\ pPT p = 0 /\ pPID p = (pid + 1) mod 65536 /\
    pSFRD p = Some (FResp r') /\ filled_ptr r r'.
Proof.
  intros Hw Hb H0 H1. pose proof (reply_wf fdl pid r b Hw Hb H0 H1) as Hp.
  destruct (pkg_roundtrip _ Hp) as (p1 & hdr & body & out & He & Hfe & Hout & Hok & Hlen & Hdec).
  cbn [pSFRD reply_pkg frame_encode] in Hfe. rewrite Hb in Hfe. apply Ok_inj in Hfe. subst body.
  change (pRTE (reply_pkg fdl pid (FResp r))) with s0 in Hlen. change (is1 s0) with false in Hlen. cbn iota in Hlen.
  exists out. rewrite He. split; [reflexivity|].
  destruct (Hdec [] [] eq_refl) as (p' & Hd & Hfill). rewrite app_nil_r in Hd.
  assert (decodes_to out p') as Hdt.
  { intros spare. destruct (Hdec [] spare eq_refl) as (p'' & Hd'' & Hfill''). rewrite app_nil_r in Hd''.
    rewrite Hd''. f_equal.
    assert (complete out /\ 1 <= decl_hl out <= std_hl out) as [Hc Hh].
    { rewrite Hout. assert (10 <= length hdr)%nat as Hl' by lia.
      pose proof (proj1 (accept_iff pkg0 out [] p' false Hok) Hd) as (_ & f & Ha & Hpe).
      pose proof (final_agrees pkg0 out f Hok) as Hag. rewrite <- Hpe in Hag.
      destruct Hag as (_ & _ & _ & A1 & _ & _ & _ & A2 & _ & A3 & _).
      destruct Hfill as (_ & _ & _ & F1 & _ & _ & _ & F2 & _ & F3 & _).
      change (pRTE (reply_pkg fdl pid (FResp r))) with s0 in F1.
      assert (routed out = false) as Hr.
      { unfold routed. destruct (N.testbit (byte_at out 2) 5); [|reflexivity].
        rewrite F1 in A1. discriminate A1. }
      assert (decl_hl out = 11) as Hhl by (unfold decl_hl; rewrite <- A2, F2; unfold blen; rewrite Hlen; reflexivity).
      assert (decl_fdl out = blen b) as Hfdl by (unfold decl_fdl; rewrite <- A3, F3; reflexivity).
      rewrite <- Hout. unfold complete, std_hl, frame_pos, hcs_pos. rewrite Hr, Hhl, Hfdl. split; [|cbn; lia].
      rewrite to_nat_blen. rewrite Hout, !app_length, Hlen, length_le_enc. cbn [length]. lia. }
    pose proof (suffix_ignored pkg0 out [] [] spare Hok eq_refl Hc Hh) as Hs.
    rewrite app_nil_r in Hs. congruence. }
  pose proof (proj1 (accept_iff pkg0 out [] p' false Hok) Hd) as (_ & f & Ha & Hpe).
  pose proof (final_agrees pkg0 out f Hok) as Hag. rewrite <- Hpe in Hag.
  destruct Hag as (A0 & _ & _ & A1 & _ & _ & _ & A2 & _ & A3 & _).
  destruct Hfill as (F0 & _ & _ & F1 & _ & _ & _ & F2 & _ & F3 & F4 & F5 & _ & _ & _ & _ & _ & fr & fr' & Hfr & Hfr' & Hff).
  assert (blen out = 13 + blen b) as Hbo.
  { rewrite Hout, !blen_app, blen_le_enc. unfold blen at 1 2. rewrite Hlen. cbn [length]. lia. }
  split; [|split; [exact Hbo|]].
  - assert (10 <= length hdr)%nat as Hl' by lia.
    rewrite Hout in A0, A2, A3 |- *. rewrite byte_at_app in A0 by lia. rewrite byte_at_app in A2 by lia.
    rewrite word_at_app in A3 by lia.
    apply std_wire; try assumption; try lia.
    + unfold byte_at in A0. rewrite <- A0, F0. reflexivity.
    + unfold byte_at in A2. rewrite <- A2, F2. unfold blen. rewrite Hlen. reflexivity.
    + rewrite Hout in Hok. exact Hok.
  - exists p'. cbn [pSFRD reply_pkg] in Hfr. injection Hfr as <-.
    destruct fr' as [l|r']; [contradiction|]. exists r'. split; [exact Hdt|].
    split; [exact F5|]. split; [exact F4|]. split; [exact Hfr'|exact Hff].
Qed.

Lemma ack_ok pid code svc nums : pid < 2 ^ 16 -> code < 256 -> svc < 256 ->
  Forall (fun n => n < 2 ^ 16) nums -> N.of_nat (length nums) <= 9362 ->
  exists b, create_pt_response pid code svc (map confirmation nums) = Ok b /\ is_ack b pid code svc nums.
Proof.
  intros Hp Hc Hs Hn Hl. unfold create_pt_response.
  destruct nums as [|n nums].
  - cbn [map bind].
    set (r := {| RPID := pid; PR := code; SDRS := None |}).
    assert (ptr_encode r = Ok (le_enc 2 pid ++ [code])) as He by reflexivity.
    rewrite (ptr_length_ok r _ He). cbn [bind].
    destruct (reply_ok (u16 (blen (le_enc 2 pid ++ [code]))) pid r _ (conj Hp (conj Hc I)) He) as (out & Ho & Hf & Hbo & p & r' & Hd & H1 & H2 & H3 & H4).
    { rewrite blen_app, blen_le_enc. cbn. lia. } { rewrite blen_app, blen_le_enc. cbn. lia. }
    exists out. split; [exact Ho|]. split; [exact Hf|].
    split; [rewrite Hbo; rewrite blen_app, blen_le_enc; reflexivity|]. exists p, r'. repeat (split; [assumption|]).
    destruct H4 as (E1 & E2 & E3). split; [exact E1|]. split; [exact E2|].
    cbn [SDRS r] in E3. destruct (SDRS r'); [contradiction|reflexivity].
  - remember (n :: nums) as ns eqn:Ens.
    destruct (reply_sdr_wf svc ns Hs Hn Hl) as (b & Hb & Hbl & Hw & b' & He & Hbl').
    assert (rds_length (map confirmation ns) = Ok (blen b)) as Hlen.
    { unfold rds_length. rewrite Hb. rewrite length_of_Ok. rewrite u16_small; [reflexivity|].
      rewrite Hbl. change (2 ^ 16) with 65536. lia. }
    set (sd := reply_sdr (blen b) svc (map confirmation ns)) in *.
    set (r := {| RPID := pid; PR := code; SDRS := Some [sd] |}).
    assert (ptr_encode r = Ok (le_enc 2 pid ++ [code] ++ b')) as Hpe.
    { unfold ptr_encode. cbn [SDRS r sds_encode]. rewrite He. cbn [bind]. rewrite app_nil_r. reflexivity. }
    assert (blen (le_enc 2 pid ++ [code] ++ b') = 10 + blen b) as Hbl2.
    { rewrite !blen_app, blen_le_enc, Hbl'. unfold blen. cbn [length]. lia. }
    assert (wf_ptr r) as Hwr.
    { split; [exact Hp|]. split; [exact Hc|]. cbn [SDRS r]. split; [discriminate|]. constructor; [exact Hw|constructor]. }
    match goal with |- context [match ?l with [] => _ | _ :: _ => _ end] =>
      assert (match l with [] => Ok None | _ :: _ => len <- rds_length l;; Ok (Some [reply_sdr len svc l]) end = Ok (Some [sd])) as Hm end.
    { rewrite Ens at 1. cbn [map]. rewrite Hlen. cbn [bind]. reflexivity. }
    rewrite Hm. cbn [bind]. fold r. rewrite (ptr_length_ok r _ Hpe). cbn [bind].
    destruct (reply_ok (u16 (blen (le_enc 2 pid ++ [code] ++ b'))) pid r _ Hwr Hpe) as (out & Ho & Hf & Hbo & p & r' & Hd & H1 & H2 & H3 & H4);
      [rewrite Hbl2; lia|rewrite Hbl2, Hbl; lia|].
    exists out. split; [exact Ho|]. split; [exact Hf|].
    split; [rewrite Hbo; rewrite Hbl2, Hbl, Ens; cbn iota; lia|]. exists p, r'. repeat (split; [assumption|]).
    destruct H4 as (E1 & E2 & E3). split; [exact E1|]. split; [exact E2|].
    cbn [SDRS r] in E3. destruct (SDRS r') as [l'|] eqn:Hl'; [|contradiction].
    rewrite Ens. inversion E3 as [|? s' ? l'' Hfs Hnil]; subst. inversion Hnil; subst.
    exists s'. split; [reflexivity|].
    destruct Hfs as (G1 & G2 & G3 & G4 & G5 & G6 & G7 & G8 & G9 & G10 & G11 & G12 & G13 & G14 & G15).
    split; [exact G1|]. split; [exact G12|]. split; [exact G13|]. apply filled_confs. exact G14.
Qed.
End ServerFacts.
