(** * GlueServer2: more lemmas behind Prop_Server. *)
From Verif Require Import GoBase Crc Float64 SubRecords Records Package Storage Server
  Spec_Bits Spec_Wf Spec_Rec Spec_Pkg Spec_Server BaseFacts SubFacts RecFacts DecFacts
  PkgFacts PkgFacts2 PkgFacts3 ServerFacts ServerFacts2 ServerFacts3 ServerFacts4 ServerFacts5 GlueServer WitnessServer.
From Coq Require Import Lia ZifyBool ZifyN ZifyNat.

Section GlueServer2.
Context {E : go_env}.

Lemma process_app b spare p l : good b -> decodes_to b p -> pSFRD p = Some (FSds l) ->
  exists acts, process (mkSlice b spare) = PActs acts /\ pPID p = word_at b 7 /\ app_actions (pPID p) l acts.
Proof.
  intros Hg Hd Hl. destruct (process_spec b spare (proj1 Hg) (proj2 Hg)) as (acts & Hp & Ha).
  exists acts. split; [exact Hp|]. apply (accepted_actions b acts p l Hg Ha (Hd []) Hl).
Qed.

Lemma reply_names b spare p l : good b -> decodes_to b p ->
  pSFRD p = Some (FSds l) -> confirms l = false ->
  exists acts ack svc, process (mkSlice b spare) = PActs acts /\ In (AWrite ack) acts /\
    framed ack /\ exists pa r, decodes_to ack pa /\ pPT pa = 0 /\ pSFRD pa = Some (FResp r) /\
      RPID r = word_at b 7 /\ PR r = 0 /\
      (l <> [] -> exists s, SDRS r = Some [s] /\ SST s = svc /\ RST s = svc /\
         map SRD (RD s) = map (fun rec => SRResp (RN rec) 0) l) /\
      (l = [] -> SDRS r = None).
Proof.
  intros Hg Hd Hl Hc. destruct (process_app b spare p l Hg Hd Hl) as (acts & Hp & Hpid & Ha).
  unfold app_actions in Ha. rewrite Hc in Ha.
  destruct Ha as (rec & ack & Hacts & _ & _ & _ & _ & _ & _ & _ & _ & _ & svc & (Hf & _ & pa & r & H1 & H2 & H3 & H4 & H5 & H6 & H7) & _).
  exists acts, ack, svc. split; [exact Hp|].
  split. { rewrite Hacts. apply in_or_app. right. left. reflexivity. }
  split; [exact Hf|]. exists pa, r. split; [exact H1|]. split; [exact H2|]. split; [exact H4|].
  split; [congruence|]. split; [exact H6|]. destruct l as [|x l].
  - split; [congruence|]. intros _. exact H7.
  - split; [|discriminate]. intros _. cbn [map] in H7. destruct H7 as (s & S1 & S2 & S3 & S4 & S5).
    exists s. split; [exact S1|]. split; [exact S3|]. split; [exact S4|]. rewrite S5.
    cbn [map]. f_equal. rewrite !map_map. apply map_ext. intros a. reflexivity.
Qed.

Lemma saves_of_app_actions pid l acts : app_actions pid l acts -> confirms l = false ->
  exists rec, saves acts = match positions l with [] => [] | _ :: _ => [rec] end /\
    Forall2 loc_stored (positions l) (nrLocs rec) /\ nrCount rec = N.of_nat (length (positions l)) /\
    map (fun s => (anNumber s, anValue s)) (nrAn rec) = flat_map analogue (subrecords l) /\
    Forall2 liquid_stored (liquids l) (nrLiq rec) /\
    nrClientID rec = last (map OID l) 0 /\ nrIMEI rec = last (imeis l) [] /\
    nrNavTs rec = last (map (fun e => unix_of (NavigationTime e)) (positions l)) 0%Z /\
    (numbered l = false -> nrPacketID rec = pid).
Proof.
  intros Ha Hc. unfold app_actions in Ha. rewrite Hc in Ha.
  destruct Ha as (rec & ack & -> & H1 & H2 & H3 & H4 & H5 & _ & H6 & H7 & H8 & _).
  exists rec. split.
  { generalize (result_packet pid). intros rp. destruct (positions l), (credentials l); reflexivity. }
  split; [exact H1|]. split; [exact H2|]. split; [exact H3|]. split; [exact H4|].
  split; [rewrite H5; apply (last_map OID)|]. split; [exact H6|]. split; [exact H7|exact H8].
Qed.
Lemma app_actions_confirms pid l acts : app_actions pid l acts -> confirms l = true -> acts = [].
Proof. intros Ha Hc. unfold app_actions in Ha. rewrite Hc in Ha. exact Ha. Qed.

Lemma positions_saved b spare p l : good b -> decodes_to b p ->
  pSFRD p = Some (FSds l) -> confirms l = false ->
  exists acts, process (mkSlice b spare) = PActs acts /\
    (positions l = [] -> saves acts = []) /\
    (positions l <> [] -> exists rec, saves acts = [rec] /\
       Forall2 loc_stored (positions l) (nrLocs rec) /\ nrCount rec = N.of_nat (length (positions l)) /\
       nrNavTs rec = last (map (fun e => unix_of (NavigationTime e)) (positions l)) 0%Z /\
       nrIMEI rec = last (imeis l) []).
Proof.
  intros Hg Hd Hl Hc. destruct (process_app b spare p l Hg Hd Hl) as (acts & Hp & Hpid & Ha).
  exists acts. split; [exact Hp|].
  destruct (saves_of_app_actions _ _ _ Ha Hc) as (rec & H1 & H2 & H3 & _ & _ & _ & H4 & H5 & _).
  split; [intros He; rewrite He in H1; exact H1|]. intros Hne. exists rec.
  split; [|auto]. destruct (positions l); [congruence|exact H1].
Qed.

(** the record saved for an accepted packet *)
Lemma saved_record b spare p l acts rec : good b -> decodes_to b p ->
  pSFRD p = Some (FSds l) -> process (mkSlice b spare) = PActs acts -> In rec (saves acts) ->
  confirms l = false /\ positions l <> [] /\ saves acts = [rec] /\
    Forall2 loc_stored (positions l) (nrLocs rec) /\
    map (fun s => (anNumber s, anValue s)) (nrAn rec) = flat_map analogue (subrecords l) /\
    Forall2 liquid_stored (liquids l) (nrLiq rec) /\ nrClientID rec = last (map OID l) 0.
Proof.
  intros Hg Hd Hl Hp Hin. destruct (process_app b spare p l Hg Hd Hl) as (acts' & Hp' & Hpid & Ha).
  rewrite Hp in Hp'. injection Hp' as <-. destruct (confirms l) eqn:Hc.
  { apply app_actions_confirms in Ha; [|exact Hc]. subst. contradiction. }
  destruct (saves_of_app_actions _ _ _ Ha Hc) as (rec' & H1 & H2 & H3 & H4 & H5 & H6 & _).
  rewrite H1 in Hin. destruct (positions l) eqn:Hpos; [contradiction|]. destruct Hin as [->|[]].
  split; [reflexivity|]. split; [discriminate|]. split; [exact H1|]. auto.
Qed.
Lemma own_object b spare p l o acts rec : good b -> decodes_to b p ->
  pSFRD p = Some (FSds l) -> Forall (fun s => OID s = o) l ->
  process (mkSlice b spare) = PActs acts -> In rec (saves acts) -> nrClientID rec = o.
Proof.
  intros Hg Hd Hl Ho Hp Hin. destruct (saved_record b spare p l acts rec Hg Hd Hl Hp Hin) as (_ & Hne & _ & _ & _ & _ & ->).
  destruct l as [|x l]; [exfalso; apply Hne; reflexivity|]. cbn [map]. rewrite last_cons_map.
  clear - Ho. revert x Ho. induction l as [|y l IH]; intros x Ho; [inversion Ho; assumption|].
  cbn [map]. rewrite last_cons_map. apply IH. inversion Ho; assumption.
Qed.
Lemma sensors_saved b spare p l acts rec : good b -> decodes_to b p ->
  pSFRD p = Some (FSds l) -> process (mkSlice b spare) = PActs acts -> In rec (saves acts) ->
  map (fun s => (anNumber s, anValue s)) (nrAn rec) = flat_map analogue (subrecords l) /\
  Forall2 liquid_stored (liquids l) (nrLiq rec).
Proof. intros Hg Hd Hl Hp Hin. destruct (saved_record b spare p l acts rec Hg Hd Hl Hp Hin) as (_ & _ & _ & _ & H1 & H2 & _). auto. Qed.

Lemma in_saves rec acts : In rec (saves acts) -> In (ASave rec) acts.
Proof.
  unfold saves. intros H. apply in_flat_map in H. destruct H as ([b|n] & H1 & H2); [contradiction|].
  destruct H2 as [->|[]]. exact H1.
Qed.
Lemma no_numbers l : (forall r n v, In r l -> SRD r = SRAbsCntr {| CounterNumber := n; CounterValue := v |} -> n <> 110 /\ n <> 111) ->
  d_num (map SRD l) = false.
Proof.
  intros H. unfold d_num. induction l as [|r l IH]; [reflexivity|]. cbn [map existsb].
  rewrite IH by (intros; eapply H; [right; eassumption|eassumption]).
  destruct (SRD r) eqn:Hr; try reflexivity. destruct e as [n v]. cbn [CounterNumber].
  destruct (H r n v (or_introl eq_refl) Hr) as [H1 H2]. apply N.eqb_neq in H1, H2. rewrite H1, H2. reflexivity.
Qed.
Lemma packet_number_iff b p before s after pre c1 mid c2 post lo hi spare acts rec :
  good b -> decodes_to b p ->
  pSFRD p = Some (FSds (before ++ s :: after)) -> RD s = pre ++ c1 :: mid ++ c2 :: post ->
  SRD c1 = SRAbsCntr {| CounterNumber := 110; CounterValue := lo |} ->
  SRD c2 = SRAbsCntr {| CounterNumber := 111; CounterValue := hi |} ->
  (forall r n v, In r (pre ++ mid ++ post ++ flat_map RD after) ->
     SRD r = SRAbsCntr {| CounterNumber := n; CounterValue := v |} -> n <> 110 /\ n <> 111) ->
  lo < 2 ^ 24 -> hi < 2 ^ 8 ->
  process (mkSlice b spare) = PActs acts -> In rec (saves acts) ->
  (nrPacketID rec = hi * 2 ^ 24 + lo <-> lo mod 2 ^ 8 = 0 /\ (lo / 2 ^ 8) mod 2 ^ 8 = lo / 2 ^ 16).
Proof.
  intros Hg Hd Hl Hrd H1 H2 Hn Hlo Hhi Hp Hin.
  assert (nrPacketID rec = combined lo hi) as ->.
  { apply (counters_saved b p before s after pre c1 mid c2 post lo hi spare acts rec); try assumption.
    - apply no_numbers. intros; eapply Hn; [|eassumption]. rewrite !in_app_iff. auto.
    - apply no_numbers. intros; eapply Hn; [|eassumption]. rewrite !in_app_iff. auto.
    - apply no_numbers. intros; eapply Hn; [|eassumption]. rewrite !in_app_iff. auto.
    - change (numbered after) with (d_num (subrecords after)).
      assert (subrecords after = map SRD (flat_map RD after)) as ->.
      { unfold subrecords. clear. induction after as [|x l IH]; [reflexivity|]. cbn [flat_map]. rewrite map_app, IH. reflexivity. }
      apply no_numbers. intros; eapply Hn; [|eassumption]. rewrite !in_app_iff. auto.
    - eapply N.lt_trans; [exact Hlo|reflexivity].
    - apply in_saves, Hin. }
  apply combined_correct; assumption.
Qed.

Lemma rejected_packet c b s p code : good b -> bytes_ok s = true ->
  concat (ci_chunks c) = b ++ s -> (forall spare, pkg_decode pkg0 (mkSlice b spare) = (p, DRet code true)) ->
  code <> 0 /\
  exists ack, is_ack ack (word_at b 7) code 0 [] /\
    conn_exec c = (AWrite ack :: fst (conn_exec (mkIn [s] (ci_end c))), snd (conn_exec (mkIn [s] (ci_end c)))).
Proof.
  intros Hg Hs Hc Hd.
  destruct (stream_packets [b] c s (Forall_cons _ Hg (Forall_nil _)) Hs) as (actss & Ha & He).
  { cbn. rewrite app_nil_r. exact Hc. }
  inversion Ha as [|b' acts bs' actss' (p' & code' & err & Hd' & Hpid & Herr & Hok) Hnil]; subst. inversion Hnil; subst.
  pose proof (Hd []) as Hx. rewrite (Hd' []) in Hx. injection Hx as -> -> ->.
  destruct (Herr eq_refl) as (Hne & ack & -> & Hi). split; [exact Hne|].
  exists ack. rewrite Hpid in Hi. split; [exact Hi|]. exact He.
Qed.

Lemma alien_closed c pkts s : carries c pkts s -> alien s ->
  exists actss, Forall2 packet_actions pkts actss /\ conn_exec c = (concat actss, FinClosed).
Proof.
  intros H Ha. destruct (carries_exec c pkts s H) as (actss & H1 & H2 & _ & H3). exists actss. split; [exact H1|].
  rewrite <- H2, <- (H3 Ha). apply surjective_pairing.
Qed.

Lemma crashes_iff data spare : bytes_ok data = true -> (10 <= length data)%nat ->
  (process (mkSlice data spare) = PCrash <-> panics data spare).
Proof.
  intros Hb Hl. destruct (process_crash data spare Hb Hl) as [H _]. rewrite H. apply panic_iff, Hb.
Qed.

Lemma good_clients stores conns sched :
  (forall st h, In st stores -> st h <> SvPanic) ->
  Forall (fun c => exists pkts s, carries c pkts s) conns ->
  g_crashed (grun stores sched (ginit conns)) = false.
Proof.
  intros Hst Hc. apply no_crash; [| |exact Hst].
  - eapply Forall_impl; [|exact Hc]. intros c (pkts & s & H). eapply carries_ok, H.
  - rewrite Forall_forall in Hc. intros c Hin. destruct (Hc c Hin) as (pkts & s & H).
    destruct (carries_exec c pkts s H) as (_ & _ & _ & H3 & _). exact H3.
Qed.

Lemma ack_means_stored stores conns sched i c pkts s :
  (forall st h, In st stores -> st h = SvOk) ->
  Forall in_ok conns -> nth_error conns i = Some c -> carries c pkts s ->
  forall pre w post, events_of i (g_trace (grun stores sched (ginit conns))) = pre ++ EWrite w :: post ->
  exists before b after, pkts = before ++ b :: after /\
    exists acts, packet_actions b acts /\ In (AWrite w) acts /\
    forall p l, decodes_to b p -> pSFRD p = Some (FSds l) -> positions l <> [] ->
      exists rec, Forall2 loc_stored (positions l) (nrLocs rec) /\
        forall k, (k < length stores)%nat -> In (ECall k rec SvOk) pre.
Proof.
  intros Hst Hb Hi Hc pre w post Hev.
  destruct (save_before_ack stores conns sched i c pkts s Hb Hi Hc pre w post Hev) as (before & b & after & H1 & acts & H2 & H3 & H4).
  exists before, b, after. split; [exact H1|]. exists acts. split; [exact H2|]. split; [exact H3|].
  intros p l Hd Hl Hne. destruct (H4 p l Hd Hl Hne) as (early & sv & late & rec & o & Hpre & Hs & Hlocs).
  exists rec. split; [exact Hlocs|]. intros k Hk.
  assert (forall j n o', In (ECall j n o') pre -> o' = SvOk) as Hf.
  { intros j n o' Hin. assert (In (ECall j n o') (events_of i (g_trace (grun stores sched (ginit conns))))) as Hin2.
    { rewrite Hev. apply in_or_app. left. exact Hin. }
    apply events_in, in_split in Hin2. destruct Hin2 as (a & z & Ht).
    destruct (grun_faithful stores conns sched _ _ _ _ _ _ Ht) as (st & Hs' & ->). apply Hst. eapply nth_error_In, Hs'. }
  assert (forall e, In e sv -> In e pre) as Hsv.
  { intros e He. rewrite Hpre. apply in_or_app. right. apply in_or_app. left. exact He. }
  destruct Hs as [|j Hj].
  - apply Hsv, in_or_app. left. apply in_map_iff. exists k. split; [reflexivity|]. apply in_seq. split; [apply Nat.le_0_l|exact Hk].
  - exfalso. assert (SvErr = SvOk) as Hx; [|discriminate].
    apply (Hf j rec). apply Hsv, in_or_app. right. left. reflexivity.
Qed.

Lemma result_body pid : pid < 2 ^ 16 ->
  framed (result_packet pid) /\
  exists s, frame_decode 1 (frame_of (result_packet pid)) = Ok (FSds [s]) /\ map SRD (RD s) = [SRResult 0] /\
    word_at (result_packet pid) 7 = (pid + 1) mod 2 ^ 16.
Proof.
  intros Hp. split; [rewrite <- rescode_eq; apply rescode_framed, Hp|].
  eexists. split; [reflexivity|]. split; [reflexivity|].
  destruct (rescode_bytes pid Hp) as (hdr & Hb & Hl & _ & _ & _ & _ & _ & H7 & _).
  rewrite <- rescode_eq, Hb. unfold word_at in *. rewrite (app_nth1 _ _ _ (n:=7)), (app_nth1 _ _ _ (n:=8)) by (rewrite app_length, Hl; cbn; lia). exact H7.
Qed.

Lemma confirm_silent b spare p : good b -> decodes_to b p ->
  (pPT p = 0 \/ (exists l, pSFRD p = Some (FSds l) /\ confirms l = true)) ->
  process (mkSlice b spare) = PActs [].
Proof.
  intros Hg Hd [H|(l & Hl & Hc)].
  - unfold process. rewrite Hd, H. reflexivity.
  - destruct (process_app b spare p l Hg Hd Hl) as (acts & Hp & _ & Ha).
    apply app_actions_confirms in Ha; [|exact Hc]. subst. exact Hp.
Qed.
End GlueServer2.
