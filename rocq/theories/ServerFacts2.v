(** * ServerFacts2: the records of an application-data packet, and one packet. *)
From Verif Require Import GoBase Crc Float64 SubRecords Records Package Storage Server
  Spec_Bits Spec_Wf Spec_Rec Spec_Pkg Spec_Server BaseFacts SubFacts RecFacts DecFacts DecWf DecWf2 EncOk
  PkgFacts PkgFacts2 PkgFacts3 ServerFacts.
From Coq Require Import Lia ZifyBool ZifyN ZifyNat.

Section ServerFacts2.
Context {E : go_env}.

(** ** Number of records *)
Lemma reader_read_len buf r x r' : reader_read buf r = Ok (x, r') -> length x = length buf /\
  (length r' = length r - length buf)%nat /\ (0 < length r)%nat.
Proof.
  intros H. unfold reader_read in H. destruct r as [|y r]; [discriminate|].
  injection H as <- <-. split; [|split; [rewrite skipn_length; reflexivity|cbn [length]; lia]].
  unfold copy_into. rewrite app_length, firstn_length, skipn_length. lia.
Qed.
Lemma read_byte_len r x r' : read_byte r = Ok (x, r') -> length r = S (length r').
Proof. destruct r; [discriminate|]. intros H. injection H as <- <-. reflexivity. Qed.
Lemma opt4_len f r x r' : opt4 f r = Ok (x, r') -> (length r' <= length r)%nat.
Proof.
  unfold opt4. destruct (is1 f).
  - intros H. apply bind_ok in H. destruct H as ([b r1] & H & H'). apply reader_read_len in H.
    apply Ok_inj in H'. injection H' as <- <-. lia.
  - intros H. apply Ok_inj in H. injection H as <- <-. lia.
Qed.

Lemma sdr_decode_len rdsdec r s r' : sdr_decode rdsdec r = Ok (s, r') -> (length r' + 7 <= length r)%nat.
Proof.
  intros H. unfold sdr_decode in H. cbv zeta in H.
  apply bind_ok in H. destruct H as ([b r1] & H1 & H). apply reader_read_len in H1. rewrite length_zeros in H1.
  apply bind_ok in H. destruct H as ([b2 r2] & H2 & H). apply reader_read_len in H2.
  apply bind_ok in H. destruct H as ([fl r3] & H3 & H). apply read_byte_len in H3.
  apply bind_ok in H. destruct H as ([oid r4] & H4 & H). apply opt4_len in H4.
  apply bind_ok in H. destruct H as ([ev r5] & H5 & H). apply opt4_len in H5.
  apply bind_ok in H. destruct H as ([tm r6] & H6 & H). apply opt4_len in H6.
  apply bind_ok in H. destruct H as ([sst r7] & H7 & H). apply read_byte_len in H7.
  apply bind_ok in H. destruct H as ([rst r8] & H8 & H). apply read_byte_len in H8.
  apply bind_ok in H. destruct H as ([rd r9] & H9 & H). apply Ok_inj in H. injection H as _ ->.
  assert (length r' <= length r8)%nat.
  { destruct r8 as [|y r8]; [apply Ok_inj in H9; injection H9 as <- <-; lia|].
    apply bind_ok in H9. destruct H9 as ([rb ra] & Ha & H9). apply reader_read_len in Ha.
    apply bind_ok in H9. destruct H9 as (l & _ & H9). apply Ok_inj in H9. injection H9 as _ <-. lia. }
  lia.
Qed.

Lemma sds_loop_len rdsdec fuel : forall r l, sds_loop rdsdec fuel r = Ok l -> (7 * length l <= length r)%nat.
Proof.
  induction fuel as [|fuel IH]; intros r l H.
  - destruct r; [|discriminate]. apply Ok_inj in H. subst. cbn. lia.
  - destruct r as [|t r]; [apply Ok_inj in H; subst; cbn; lia|].
    cbn [sds_loop] in H. apply bind_ok in H. destruct H as ([s r'] & Hs & H).
    apply sdr_decode_len in Hs. apply bind_ok in H. destruct H as (l' & Hl & H). apply Ok_inj in H. subst.
    apply IH in Hl. cbn [length] in *. lia.
Qed.

Lemma sds_decode_len b l : sds_decode b = Ok l -> (7 * length l <= length b)%nat.
Proof. apply sds_loop_len. Qed.

(** ** The loops *)
Definition d_pos (ds : list srdata) : list pos_data :=
  flat_map (fun d => match d with SRPos e => [e] | _ => [] end) ds.
Definition d_liq (ds : list srdata) : list liquid :=
  flat_map (fun d => match d with SRLiquid e => [e] | _ => [] end) ds.
Definition d_conf (ds : list srdata) : bool :=
  existsb (fun d => match d with SRResp _ _ => true | _ => false end) ds.
Definition d_cred (ds : list srdata) : bool :=
  existsb (fun d => match d with SRAuth _ | SRTerm _ => true | _ => false end) ds.
Definition an_pair (s : an_sensor) : N * N := (anNumber s, anValue s).

Definition nonempty {A} (l : list A) : bool := match l with [] => false | _ :: _ => true end.

(** [st'] is [st] after the subrecords [ds]. *)
Definition after_subs (pid : N) (ds : list srdata) (st st' : app_st) : Prop :=
  ap_save st' = ap_save st || nonempty (d_pos ds) /\
  ap_resps st' = ap_resps st /\ ap_service st' = ap_service st /\
  ap_rescode st' = (if d_cred ds then rescode_pkg pid else ap_rescode st) /\
  nrLocs (ap_exp st') = nrLocs (ap_exp st) ++ map loc_of (d_pos ds) /\
  nrCount (ap_exp st') = nrCount (ap_exp st) + N.of_nat (length (d_pos ds)) /\
  map an_pair (nrAn (ap_exp st')) = map an_pair (nrAn (ap_exp st)) ++ flat_map analogue ds /\
  nrLiq (ap_exp st') = nrLiq (ap_exp st) ++ map liq_of (d_liq ds) /\
  nrClientID (ap_exp st') = nrClientID (ap_exp st) /\ nrServerID (ap_exp st') = nrServerID (ap_exp st).

Lemma an_of_ad_spec e : map an_pair (an_of_ad e) = analogue (SRAd e).
Proof.
  unfold an_of_ad, analogue, an_opt, oct_list. destruct (ASFE e) as [a1 a2 a3 a4 a5 a6 a7 a8], (ANS e) as [v1 v2 v3 v4 v5 v6 v7 v8].
  cbn [o1 o2 o3 o4 o5 o6 o7 o8 combine].
  cbn [filter fst].
  destruct (is1 a1), (is1 a2), (is1 a3), (is1 a4), (is1 a5), (is1 a6), (is1 a7), (is1 a8); reflexivity.
Qed.

Lemma after_step pid ds st d st1 st' :
  after_subs pid ds st1 st' -> after_subs pid [d] st st1 -> after_subs pid (d :: ds) st st'.
Proof.
  intros (A1 & A2 & A3 & A4 & A5 & A6 & A7 & A8 & A9 & A10) (B1 & B2 & B3 & B4 & B5 & B6 & B7 & B8 & B9 & B10).
  unfold after_subs. change (d :: ds) with ([d] ++ ds).
  unfold d_pos, d_cred, d_liq in *. rewrite !flat_map_app, existsb_app.
  rewrite A1, B1, A2, B2, A3, B3, A4, B4, A5, B5, A6, B6, A7, B7, A8, B8, A9, B9, A10, B10.
  rewrite !map_app, !app_length, !app_assoc.
  repeat split.
  - destruct d; cbn; destruct (ap_save st), (flat_map _ ds); reflexivity.
  - destruct (existsb _ [d]), (existsb _ ds); reflexivity.
  - lia.
Qed.

Lemma after_nil pid st : after_subs pid [] st st.
Proof.
  unfold after_subs. cbn. rewrite !app_nil_r, orb_false_r, N.add_0_r. repeat split.
Qed.

Lemma cntr_step_keeps e ids n ids' n' : cntr_step e ids n = (ids', n') ->
  nrLocs n' = nrLocs n /\ nrCount n' = nrCount n /\ nrAn n' = nrAn n /\ nrLiq n' = nrLiq n /\
  nrClientID n' = nrClientID n /\ nrServerID n' = nrServerID n.
Proof.
  unfold cntr_step. destruct (_ =? 110); [|destruct (_ =? 111)]; intros H; injection H as <- <-; repeat split; reflexivity.
Qed.

Lemma subs_loop_spec pid l : forall ids st,
  if d_conf (map SRD l) then subs_loop pid ids st l = None
  else exists st', subs_loop pid ids st l = Some st' /\ after_subs pid (map SRD l) st st'.
Proof.
  induction l as [|rd l IH]; intros ids st.
  - cbn. exists st. split; [reflexivity|apply after_nil].
  - cbn [map]. unfold d_conf. cbn [existsb]. fold (d_conf (map SRD l)).
    cbn [subs_loop].
    assert (forall ids1 st1, (if d_conf (map SRD l) then subs_loop pid ids1 st1 l = None
              else exists st', subs_loop pid ids1 st1 l = Some st' /\ after_subs pid (map SRD l) st1 st') ->
            after_subs pid [SRD rd] st st1 ->
            if d_conf (map SRD l) then subs_loop pid ids1 st1 l = None
              else exists st', subs_loop pid ids1 st1 l = Some st' /\ after_subs pid (SRD rd :: map SRD l) st st') as Hgo.
    { intros ids1 st1 H Ha. destruct (d_conf (map SRD l)); [exact H|].
      destruct H as (st' & H1 & H2). exists st'. split; [exact H1|]. eapply after_step; eassumption. }
    destruct (SRD rd) eqn:Ed; cbn [orb];
      try (apply (Hgo ids); [apply IH|]; unfold after_subs, set_exp, nr_add_loc, nr_add_an, nr_add_liq, nr_set_imei;
           cbn [d_pos d_cred d_liq flat_map existsb app map length nonempty orb
                ap_exp ap_save ap_resps ap_service ap_rescode
                nrServerID nrIMEI nrClientID nrPacketID nrNavTs nrAn nrLiq nrLocs nrCount];
           rewrite ?orb_false_r, ?orb_true_r, ?app_nil_r, ?N.add_0_r, ?map_app;
           repeat split; rewrite ?an_of_ad_spec; cbn [analogue map]; rewrite ?app_nil_r; reflexivity).
    + reflexivity.
    + destruct (cntr_step e ids (ap_exp st)) as [ids' n'] eqn:Hc. apply cntr_step_keeps in Hc.
      destruct Hc as (C1 & C2 & C3 & C4 & C5 & C6).
      apply (Hgo ids'); [apply IH|]. unfold after_subs, set_exp.
      cbn [d_pos d_cred d_liq flat_map existsb app map length nonempty orb analogue
                ap_exp ap_save ap_resps ap_service ap_rescode].
      rewrite C1, C2, C3, C4, C5, C6, !app_nil_r, orb_false_r, N.add_0_r. repeat split.
Qed.

(** the same over records *)
Definition after_recs (pid : N) (l : list sdr) (st st' : app_st) : Prop :=
  ap_save st' = ap_save st || nonempty (positions l) /\
  ap_resps st' = ap_resps st ++ map confirmation (map RN l) /\
  (ap_service st' = last (map SST l) (ap_service st)) /\
  ap_rescode st' = (if credentials l then rescode_pkg pid else ap_rescode st) /\
  nrLocs (ap_exp st') = nrLocs (ap_exp st) ++ map loc_of (positions l) /\
  nrCount (ap_exp st') = nrCount (ap_exp st) + N.of_nat (length (positions l)) /\
  map an_pair (nrAn (ap_exp st')) = map an_pair (nrAn (ap_exp st)) ++ flat_map analogue (subrecords l) /\
  nrLiq (ap_exp st') = nrLiq (ap_exp st) ++ map liq_of (liquids l) /\
  nrClientID (ap_exp st') = last (map OID l) (nrClientID (ap_exp st)) /\
  nrServerID (ap_exp st') = nrServerID (ap_exp st).

Lemma last_cons_map {A} (x y : A) l : last (x :: l) y = last l x.
Proof.
  revert x y. induction l as [|a l IH]; intros x y; [reflexivity|].
  change (last (x :: a :: l) y) with (last (a :: l) y). rewrite !IH. reflexivity.
Qed.

Lemma recs_loop_spec pid l : forall st,
  if confirms l then recs_loop pid st l = None
  else exists st', recs_loop pid st l = Some st' /\ after_recs pid l st st'.
Proof.
  induction l as [|s l IH]; intros st.
  - cbn. exists st. split; [reflexivity|]. unfold after_recs. cbn. rewrite !app_nil_r, orb_false_r, N.add_0_r. repeat split.
  - cbn [recs_loop]. unfold confirms, subrecords. cbn [flat_map]. rewrite existsb_app.
    fold (subrecords l). fold (confirms l). fold (d_conf (map SRD (RD s))).
    set (st1 := mkApp (nr_set_client (OID s) (ap_exp st)) (ap_save st)
              (ap_resps st ++ [{| SRT := 0; SRL := 3; SRD := SRResp (RN s) 0 |}]) (SST s) (ap_rescode st)).
    pose proof (subs_loop_spec pid (RD s) (zeros 4) st1) as Hs.
    destruct (d_conf (map SRD (RD s))); cbn [orb].
    { rewrite Hs. reflexivity. }
    destruct Hs as (st2 & Hs & Ha). rewrite Hs. specialize (IH st2).
    destruct (confirms l); [exact IH|]. destruct IH as (st' & H1 & H2). exists st'. split; [exact H1|].
    destruct Ha as (A1 & A2 & A3 & A4 & A5 & A6 & A7 & A8 & A9 & A10).
    destruct H2 as (B1 & B2 & B3 & B4 & B5 & B6 & B7 & B8 & B9 & B10).
    unfold after_recs. unfold positions, credentials, liquids, subrecords in *. cbn [flat_map map].
    rewrite !flat_map_app, existsb_app, !last_cons_map.
    fold (d_pos (map SRD (RD s))) (d_cred (map SRD (RD s))) (d_liq (map SRD (RD s))).
    rewrite B1, A1, B2, A2, B3, A3, B4, A4, B5, A5, B6, A6, B7, A7, B8, A8, B9, A9, B10, A10.
    unfold st1. cbn [ap_exp ap_save ap_resps ap_service ap_rescode].
    rewrite !map_app, !app_length, !app_assoc.
    repeat split.
    + destruct (ap_save st), (d_pos _); reflexivity.
    + rewrite <- app_assoc. reflexivity.
    + destruct (d_cred _); cbn [orb]; [destruct (existsb _ _); reflexivity|reflexivity].
    + unfold nr_set_client. cbn [nrCount]. lia.
Qed.

Lemma liq_of_stored e : liquid_stored e (liq_of e).
Proof.
  unfold liquid_stored, liq_of. cbn [lqNumber lqModule lqError lqUnit lqMm lqL].
  repeat (split; [reflexivity|]). split; [|split].
  - intros [->| ->]; split; reflexivity.
  - intros ->. split; reflexivity.
  - intros ->. split; reflexivity.
Qed.
Lemma loc_of_stored e : loc_stored e (loc_of e).
Proof. repeat split. Qed.
Lemma Forall2_map_r {A B} (R : A -> B -> Prop) f l : (forall x, R x (f x)) -> Forall2 R l (map f l).
Proof. intros H. induction l; constructor; auto. Qed.

Lemma last_map {A B} (f : A -> B) l d : f (last l d) = last (map f l) (f d).
Proof. induction l as [|x l IH]; [reflexivity|]. destruct l; [reflexivity|]. exact IH. Qed.

Lemma rescode_eq pid : rescode_pkg pid = result_packet pid.
Proof. reflexivity. Qed.

(** the fields of the saved record that are overwritten rather than appended *)
Definition d_imei (ds : list srdata) : list gostr :=
  flat_map (fun d => match d with SRTerm e => [IMEI e] | _ => [] end) ds.
Definition d_num (ds : list srdata) : bool :=
  existsb (fun d => match d with
                    | SRAbsCntr e => (CounterNumber e =? 110) || (CounterNumber e =? 111)
                    | _ => false end) ds.
Definition d_ts (ds : list srdata) : list Z := map (fun e => unix_of (NavigationTime e)) (d_pos ds).
Lemma last_app_d {A} (a b : list A) d : last (a ++ b) d = last b (last a d).
Proof.
  revert d. induction a as [|x a IH]; intros d; [reflexivity|]. cbn [app]. rewrite !last_cons_map. apply IH.
Qed.
Definition after_set (ds : list srdata) (st st' : app_st) : Prop :=
  nrIMEI (ap_exp st') = last (d_imei ds) (nrIMEI (ap_exp st)) /\
  nrNavTs (ap_exp st') = last (d_ts ds) (nrNavTs (ap_exp st)) /\
  (d_num ds = false -> nrPacketID (ap_exp st') = nrPacketID (ap_exp st)).
Lemma after_set_trans a b st st1 st' : after_set a st st1 -> after_set b st1 st' -> after_set (a ++ b) st st'.
Proof.
  intros (A1 & A2 & A3) (B1 & B2 & B3). unfold after_set, d_imei, d_num, d_ts, d_pos in *.
  rewrite !flat_map_app, existsb_app, map_app, !last_app_d, B1, A1, B2, A2.
  split; [reflexivity|]. split; [reflexivity|]. intros H. apply orb_false_elim in H. destruct H as [H1 H2].
  rewrite B3, A3; auto.
Qed.
Lemma subs_loop_set pid l : forall ids st st', subs_loop pid ids st l = Some st' -> after_set (map SRD l) st st'.
Proof.
  induction l as [|rd l IH]; intros ids st st' H.
  - injection H as <-. split; [reflexivity|]. split; reflexivity.
  - cbn [map]. change (SRD rd :: map SRD l) with ([SRD rd] ++ map SRD l). cbn [subs_loop] in H.
    destruct (SRD rd) eqn:Ed; try discriminate H;
      try (apply IH in H; eapply after_set_trans; [|exact H]; split; [reflexivity|]; split; reflexivity).
    destruct (cntr_step e ids (ap_exp st)) as [ids' n'] eqn:Hc. apply IH in H.
    eapply after_set_trans; [|exact H]. unfold cntr_step in Hc. unfold after_set, set_exp. cbn [ap_exp d_imei d_ts d_pos flat_map map app last d_num existsb].
    destruct (_ =? 110); [|destruct (_ =? 111)]; injection Hc as <- <-; (split; [reflexivity|]); (split; [reflexivity|]); try discriminate; reflexivity.
Qed.
Lemma recs_loop_set pid l : forall st st', recs_loop pid st l = Some st' -> after_set (subrecords l) st st'.
Proof.
  induction l as [|s l IH]; intros st st' H.
  - injection H as <-. split; [reflexivity|]. split; reflexivity.
  - cbn [recs_loop] in H. unfold subrecords. cbn [flat_map]. fold (subrecords l).
    destruct (subs_loop pid (zeros 4) _ (RD s)) as [st1|] eqn:Hs; [|discriminate].
    apply subs_loop_set in Hs. apply IH in H. eapply after_set_trans; [|exact H].
    destruct Hs as (H1 & H2 & H3). split; [exact H1|]. split; [exact H2|exact H3].
Qed.

Lemma app_spec pid l : pid < 2 ^ 16 -> Forall dec_sdr l -> N.of_nat (length l) <= 9362 ->
  exists acts, match recs_loop pid (app_init pid) l with
               | Some st => app_reply pid 0 st
               | None => PActs []
               end = PActs acts /\ app_actions pid l acts.
Proof.
  intros Hp Hd Hl. pose proof (recs_loop_spec pid l (app_init pid)) as H. unfold app_actions.
  destruct (confirms l).
  { rewrite H. exists []. split; reflexivity. }
  destruct H as (st & Hrl & A1 & A2 & A3 & A4 & A5 & A6 & A7 & A8 & A9 & A10).
  destruct (recs_loop_set _ _ _ _ Hrl) as (S1 & S2 & S3). rewrite Hrl. clear Hrl.
  cbn [app_init ap_exp ap_save ap_resps ap_service ap_rescode nrServerID nrIMEI nrClientID nrPacketID nrNavTs nrAn nrLiq nrLocs nrCount map app orb] in *.
  unfold app_reply. rewrite A2.
  assert (ap_service st < 256) as Hs.
  { rewrite A3. clear - Hd. induction Hd as [|s l Hs Hd IH]; [reflexivity|].
    cbn [map]. rewrite last_cons_map. destruct l; [cbn; apply Hs|].
    cbn [map] in *. rewrite last_cons_map in *. exact IH. }
  assert (Forall (fun n => n < 2 ^ 16) (map RN l)) as Hn.
  { apply Forall_forall. intros n Hin. apply in_map_iff in Hin. destruct Hin as (s & <- & Hin).
    rewrite Forall_forall in Hd. apply Hd, Hin. }
  destruct (ack_ok pid 0 (ap_service st) (map RN l) Hp eq_refl Hs Hn) as (ack & Hack & Hisack).
  { rewrite map_length. exact Hl. }
  rewrite Hack. eexists. split; [reflexivity|].
  exists (ap_exp st), ack. rewrite A1, A4. split.
  { f_equal; [destruct (positions l); reflexivity|]. f_equal.
    destruct (credentials l); [|reflexivity]. rewrite rescode_eq. reflexivity. }
  split; [rewrite A5; apply Forall2_map_r, loc_of_stored|].
  split; [rewrite A6; lia|].
  split; [exact A7|].
  split; [rewrite A8; apply Forall2_map_r, liq_of_stored|].
  split; [rewrite A9; symmetry; apply (last_map OID)|].
  split; [exact A10|]. split; [exact S1|]. split; [exact S2|]. split; [exact S3|].
  exists (ap_service st). split; [exact Hisack|].
  intros s l' ->. rewrite A3, map_app. cbn [map]. apply last_last.
Qed.

(** ** One packet *)
Ltac setnf := cbv beta iota zeta delta [set_PT set_PID set_FDL set_HE set_HL set_flags set_PR set_CMP set_ENA set_RTE
    set_PRF set_SKID set_PRV set_PRA set_RCA set_TTL set_HCS set_SFRD set_SFRCS
    pPRV pSKID pPRF pRTE pENA pCMP pPR pHL pHE pFDL pPID pPT pPRA pRCA pTTL pHCS pSFRD pSFRCS].

(** what Decode leaves in the packet identifier, once ten bytes are there *)
Lemma pkg_decode_pid p data spare : bytes_ok data = true -> (10 <= length data)%nat ->
  snd (pkg_decode p (mkSlice data spare)) <> DPanic ->
  pPID (fst (pkg_decode p (mkSlice data spare))) = word_at data 7.
Proof.
  intros Hb Hl Hp.
  destruct (Nat.leb_spec (length data) (hcs_pos data)) as [Hs|Hs].
  - clear Hp. pose proof (rte_routed data (bytes_ok_nth data 2 Hb)) as Hr.
    destruct (Nat.le_gt_cases (hcs_pos data) (length data)) as [Hge|Hlt].
    { rewrite decode_header by assumption. rewrite skipn_all2 by exact Hs. reflexivity. }
    clear Hs. destruct p. unfold pkg_decode. cbn [sl_data]. cbv zeta.
    destruct data as [|b0 [|b1 [|b2 [|b3 [|b4 [|b5 [|b6 [|b7 [|b8 [|b9 r]]]]]]]]]]; cbn [length] in Hl; try lia.
    cbn [byteP read_byte stepP].
    rewrite rr2 by reflexivity. cbn [stepP]. rewrite rr2 by reflexivity. cbn [stepP byteP].
    setnf.
    unfold byte_at in Hr. cbn [nth] in Hr. rewrite Hr. unfold hcs_pos in Hlt. destruct (routed _) eqn:Hrt.
    + cbn [length] in Hlt. unfold word_at. cbn [nth].
      destruct r as [|c0 [|c1 [|c2 [|c3 [|c4 r]]]]]; cbn [length] in Hlt; try lia; cbn -[N.add N.mul le_dec]; rewrite ?le_dec2; try reflexivity.
    + cbn [length] in Hlt. lia.
  - rewrite decode_long in * by assumption. unfold decode_fun in *. cbv zeta in *.
    repeat match goal with |- context [if ?c then _ else _] => destruct c; [reflexivity|] end.
    pose proof (frame_decode_returns (byte_at data 9) (frame_read data)) as Hret.
    destruct (frame_decode _ _); cbn [fst snd] in *; try contradiction; try reflexivity.
    repeat match goal with |- context [if ?c then _ else _] => destruct c; try reflexivity end.
Qed.

(** error codes *)
Lemma outcome_code data spare code err : outcome data spare = DRet code err ->
  code < 256 /\ (err = true <-> code <> 0).
Proof.
  unfold outcome. cbv zeta.
  repeat match goal with |- context [if ?c then _ else _] => destruct c; [intros H; (discriminate || (injection H as <- <-; split; [reflexivity|split; [discriminate|reflexivity]]))|] end.
  destruct (frame_decode _ _); cbn [ares]; try discriminate;
    [|intros H; injection H as <- <-; split; [reflexivity|split; [discriminate|reflexivity]]].
  repeat match goal with |- context [if ?c then _ else _] => destruct c end; intros H; try discriminate;
    injection H as <- <-; (split; [reflexivity|split; [intros; discriminate|first [reflexivity|intros Hx; exfalso; apply Hx; reflexivity]]]).
Qed.

Lemma area_full data spare i n : i + n <= blen data -> area (data ++ spare) i n = area data i n.
Proof. apply area_app. Qed.

(** A packet that is framed and on which Decode does not panic is decoded
    without looking behind it. *)
Lemma framed_spare data spare spare' : framed data -> survives data ->
  pkg_decode pkg0 (mkSlice data spare) = pkg_decode pkg0 (mkSlice data spare').
Proof.
  intros (Hb & H0 & Hlen & H10 & Hmax) Hsv.
  destruct (Nat.leb_spec (length data) (hcs_pos data)) as [Hs|Hs].
  - destruct (Nat.le_gt_cases (hcs_pos data) (length data)) as [Hge|Hlt'].
    + rewrite !decode_header by assumption. rewrite skipn_all2 by exact Hs. reflexivity.
    + clear Hs. pose proof (rte_routed data (bytes_ok_nth data 2 Hb)) as Hr. unfold pkg_decode. cbn [sl_data]. cbv zeta.
      assert (10 <= length data)%nat as Hl by (unfold blen in Hlen; lia).
      clear H0 Hlen Hsv Hmax H10.
      destruct data as [|b0 [|b1 [|b2 [|b3 [|b4 [|b5 [|b6 [|b7 [|b8 [|b9 r]]]]]]]]]]; cbn [length] in Hl; try lia.
      cbn [byteP read_byte stepP].
      rewrite rr2 by reflexivity. cbn [stepP]. rewrite rr2 by reflexivity. cbn [stepP byteP]. unfold pkg0.
      setnf.
      unfold byte_at in Hr. cbn [nth] in Hr. rewrite Hr. unfold hcs_pos in Hlt'. destruct (routed _) eqn:Hrt.
      * cbn [length] in Hlt'.
        match goal with |- context [decode_hcs (mkSlice ?d spare)] => set (k1 := decode_hcs (mkSlice d spare)); set (k2 := decode_hcs (mkSlice d spare')) end.
        clearbody k1 k2.
        destruct r as [|c0 [|c1 [|c2 [|c3 [|c4 r]]]]]; cbn [length] in Hlt'; try lia;
          cbn [reader_read length zeros repeat skipn stepP byteP]; reflexivity.
      * cbn [length] in Hlt'. lia.
  - rewrite !decode_long by assumption. unfold decode_fun. cbv zeta.
    assert (u8 (decl_hl data + 255) <= blen data) as H1.
    { destruct (N.le_gt_cases (u8 (decl_hl data + 255)) (blen data)) as [H1|H1]; [exact H1|].
      exfalso. apply (Hsv []). apply panic_iff; [exact Hb|]. split; [exact Hs|]. left. rewrite app_nil_r. exact H1. }
    assert (decl_hl data + decl_fdl data <= blen data) as H2.
    { rewrite Hlen. unfold wire_len. destruct (0 <? decl_fdl data) eqn:Hz; lia. }
    rewrite !blen_app.
    rewrite !(area_app data) by lia.
    replace (blen data + blen spare <? u8 (decl_hl data + 255)) with false by lia.
    replace (blen data + blen spare' <? u8 (decl_hl data + 255)) with false by lia.
    replace (blen data + blen spare <? decl_hl data + decl_fdl data) with false by lia.
    replace (blen data + blen spare' <? decl_hl data + decl_fdl data) with false by lia.
    reflexivity.
Qed.

Lemma framed_ten data : framed data -> (10 <= length data)%nat.
Proof. intros (_ & _ & Hl & H10 & _). unfold blen in Hl. lia. Qed.

Lemma std_survives data : framed data -> 1 <= decl_hl data -> decl_hl data + decl_fdl data < 2 ^ 16 ->
  survives data.
Proof.
  intros Hf Hhl Hw spare Hp. pose proof Hf as (Hb & H0 & Hlen & H10 & Hmax).
  apply panic_iff in Hp; [|exact Hb]. destruct Hp as (_ & Hp).
  assert (decl_hl data < 256) as Hlt by (apply bytes_ok_nth; exact Hb).
  assert (u8 (decl_hl data + 255) = decl_hl data - 1) as Hu.
  { unfold u8. replace (decl_hl data + 255) with (decl_hl data - 1 + 1 * 256) by lia.
    rewrite N.mod_add by lia. apply N.mod_small. lia. }
  rewrite Hu, blen_app in Hp.
  assert (decl_hl data <= blen data) as H1 by (rewrite Hlen; unfold wire_len; lia).
  assert (decl_hl data + decl_fdl data <= blen data) as H2.
  { rewrite Hlen. unfold wire_len. destruct (0 <? decl_fdl data) eqn:Hz; lia. }
  destruct Hp as [Hp|(_ & _ & _ & _ & _ & [Hp|Hp])]; lia.
Qed.

Lemma frame_decode_type pt b f : frame_decode pt b = Ok f ->
  if pt =? 1 then exists l, f = FSds l /\ sds_decode b = Ok l else exists r, f = FResp r /\ ptr_decode b = Ok r.
Proof.
  unfold frame_decode. change PtAppdataPacket with 1. destruct (pt =? 1); intros H; apply rmap_ok in H;
    destruct H as (x & Hx & ->); eauto.
Qed.

Lemma accepted_records data spare l : bytes_ok data = true -> accepted data spare (FSds l) ->
  byte_at data 9 = 1 /\ Forall dec_sdr l /\ N.of_nat (length l) <= 9362 /\ sds_decode (frame_of data) = Ok l.
Proof.
  intros Hb (_ & _ & _ & Hpt & Hfd & _). apply frame_decode_type in Hfd.
  destruct Hpt as [Hpt|Hpt]; rewrite Hpt in Hfd; cbn in Hfd.
  - destruct Hfd as (r & H & _). discriminate H.
  - destruct Hfd as (l' & H & Hs). injection H as <-. split; [exact Hpt|].
    assert (bytes_ok (frame_of data) = true) as Hbf by (apply bytes_ok_firstn, bytes_ok_skipn, Hb).
    split; [eapply sds_decode_wf; [exact Hbf|exact Hs]|]. split; [|exact Hs].
    apply sds_decode_len in Hs. unfold frame_of in Hs. rewrite firstn_length in Hs.
    assert (decl_fdl data < 2 ^ 16) as Hfdl by (apply word_at_bound; exact Hb).
    change (2 ^ 16) with 65536 in Hfdl. lia.
Qed.

Lemma process_spec data spare : framed data -> survives data ->
  exists acts, process (mkSlice data spare) = PActs acts /\ packet_actions data acts.
Proof.
  intros Hf Hsv. pose proof Hf as (Hb & H0 & Hlen & H10 & Hmax).
  pose proof (Hsv spare) as Hnp.
  pose proof (decode_no_fuel pkg0 data spare Hb) as Hnf.
  pose proof (pkg_decode_pid pkg0 data spare Hb (framed_ten _ Hf) Hnp) as Hpid.
  pose proof (decode_out pkg0 data spare Hb) as Hout.
  unfold process. destruct (pkg_decode pkg0 (mkSlice data spare)) as [p o] eqn:Hd. cbn [fst snd] in *.
  assert (forall sp, pkg_decode pkg0 (mkSlice data sp) = (p, o)) as Hall.
  { intros sp. rewrite (framed_spare data sp spare Hf Hsv). exact Hd. }
  assert (pPID p < 2 ^ 16) as Hp16 by (rewrite Hpid; apply word_at_bound; exact Hb).
  destruct o as [code err| |]; try congruence. symmetry in Hout.
  destruct (outcome_code _ _ _ _ Hout) as [Hc Hce]. destruct err.
  - destruct (ack_ok (pPID p) code 0 [] Hp16 Hc eq_refl) as (ack & Ha & Hi); [constructor|cbn; lia|].
    cbn [map] in Ha. rewrite Ha. exists [AWrite ack]. split; [reflexivity|].
    exists p, code, true. split; [exact Hall|]. split; [exact Hpid|]. split; [|discriminate].
    intros _. split; [apply Hce; reflexivity|]. exists ack. split; [reflexivity|exact Hi].
  - assert (code = 0) as -> by (destruct (N.eq_dec code 0) as [|Hn]; [assumption|apply Hce in Hn; discriminate]).
    apply (accept_iff pkg0 data spare p false Hb) in Hd. destruct Hd as (_ & f & Hacc & Hpf).
    change PtAppdataPacket with 1.
    assert (pPT p = byte_at data 9) as Hpt by (rewrite Hpf; reflexivity).
    assert (pSFRD p = Some f) as Hsf by (rewrite Hpf; reflexivity).
    rewrite Hsf. destruct (N.eqb_spec (pPT p) 1) as [H1|H1].
    + pose proof Hacc as (_ & _ & _ & _ & Hfd & _). apply frame_decode_type in Hfd. rewrite <- Hpt, H1 in Hfd. cbn in Hfd.
      destruct Hfd as (l & -> & Hs). destruct (accepted_records data spare l Hb Hacc) as (_ & Hdl & Hn & _).
      destruct (app_spec (pPID p) l Hp16 Hdl Hn) as (acts & Hacts & Happ).
      exists acts. split; [exact Hacts|]. exists p, 0, false. split; [exact Hall|]. split; [exact Hpid|].
      split; [discriminate|]. intros _. split; [reflexivity|]. right. split; [exact H1|]. exists l. split; assumption.
    + exists []. split; [reflexivity|]. exists p, 0, false. split; [exact Hall|]. split; [exact Hpid|].
      split; [discriminate|]. intros _. split; [reflexivity|]. left.
      pose proof Hacc as (_ & _ & _ & Hp01 & Hfd & _). rewrite <- Hpt in Hp01. assert (pPT p = 0) as Hz by (destruct Hp01; congruence).
      split; [exact Hz|]. split; [reflexivity|]. apply frame_decode_type in Hfd. rewrite <- Hpt, Hz in Hfd.
      destruct Hfd as (r & -> & _). exists r. exact Hsf.
Qed.

(** The receiver crashes on a packet exactly when Decode panics on it. *)
Lemma process_crash data spare : bytes_ok data = true -> (10 <= length data)%nat ->
  (process (mkSlice data spare) = PCrash <-> snd (pkg_decode pkg0 (mkSlice data spare)) = DPanic) /\
  process (mkSlice data spare) <> PFuel.
Proof.
  intros Hb Hten.
  pose proof (decode_no_fuel pkg0 data spare Hb) as Hnf.
  pose proof (pkg_decode_pid pkg0 data spare Hb Hten) as Hpid.
  pose proof (decode_out pkg0 data spare Hb) as Hout.
  unfold process. destruct (pkg_decode pkg0 (mkSlice data spare)) as [p o] eqn:Hd. cbn [fst snd] in *.
  destruct o as [code err| |]; try congruence.
  2: { split; [split; reflexivity|discriminate]. }
  specialize (Hpid ltac:(discriminate)).
  assert (pPID p < 2 ^ 16) as Hp16 by (rewrite Hpid; apply word_at_bound; exact Hb).
  symmetry in Hout. destruct (outcome_code _ _ _ _ Hout) as [Hc Hce]. destruct err.
  - destruct (ack_ok (pPID p) code 0 [] Hp16 Hc eq_refl) as (ack & Ha & Hi); [constructor|cbn; lia|].
    cbn [map] in Ha. rewrite Ha. split; [split; discriminate|discriminate].
  - assert (code = 0) as -> by (destruct (N.eq_dec code 0) as [|Hn]; [assumption|apply Hce in Hn; discriminate]).
    apply (accept_iff pkg0 data spare p false Hb) in Hd. destruct Hd as (_ & f & Hacc & Hpf).
    change PtAppdataPacket with 1.
    assert (pPT p = byte_at data 9) as Hpt by (rewrite Hpf; reflexivity).
    assert (pSFRD p = Some f) as Hsf by (rewrite Hpf; reflexivity).
    rewrite Hsf. destruct (N.eqb_spec (pPT p) 1) as [H1|H1].
    + pose proof Hacc as (_ & _ & _ & _ & Hfd & _). apply frame_decode_type in Hfd. rewrite <- Hpt, H1 in Hfd. cbn in Hfd.
      destruct Hfd as (l & -> & Hs). destruct (accepted_records data spare l Hb Hacc) as (_ & Hdl & Hn & _).
      destruct (app_spec (pPID p) l Hp16 Hdl Hn) as (acts & Hacts & Happ).
      rewrite Hacts. split; [split; discriminate|discriminate].
    + split; [split; discriminate|discriminate].
Qed.
End ServerFacts2.
