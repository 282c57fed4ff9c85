(** * WitnessServer: concrete streams that refute properties of the receiver, and
    the counters 110/111. *)
From Verif Require Import GoBase Crc Float64 SubRecords Records Package Storage Server
  Spec_Bits Spec_Wf Spec_Rec Spec_Pkg Spec_Server BaseFacts SubFacts RecFacts DecFacts
  PkgFacts PkgFacts2 PkgFacts3 ServerFacts ServerFacts2 ServerFacts3 ServerFacts4 ServerFacts5 GlueServer.
From Coq Require Import Lia ZifyBool ZifyN ZifyNat.

Section WitnessServer.
Context {E : go_env}.

Lemma good_std b : framed b -> (1 <=? decl_hl b) && (decl_hl b + decl_fdl b <? 2 ^ 16) = true -> good b.
Proof. intros Hf H. split; [exact Hf|]. apply std_survives; [exact Hf|lia|lia]. Qed.
Ltac good_tac := apply good_std; [split; [vm_compute; reflexivity|]; split; [vm_compute; reflexivity|];
   split; [vm_compute; reflexivity|]; vm_compute; split; [discriminate|reflexivity]|vm_compute; reflexivity].

Lemma decodes_to_nil b p : good b -> pkg_decode pkg0 (mkSlice b []) = (p, DRet 0 false) -> decodes_to b p.
Proof. intros [Hf Hs] H spare. rewrite (framed_spare b spare [] Hf Hs). exact H. Qed.

(** two records of objects 7 and 9, each with a position *)
Definition two_objects : bytes := [1; 0; 0; 11; 0; 70; 0; 5; 0; 1; 3; 24; 0; 1; 0; 1; 7; 0; 0; 0; 2; 2; 16; 21; 0; 85; 145; 2; 16; 111; 28; 5; 158; 122; 181; 60; 53; 1; 208; 135; 44; 1; 0; 0; 0; 0; 24; 0; 2; 0; 1; 9; 0; 0; 0; 2; 2; 16; 21; 0; 85; 145; 2; 16; 111; 28; 5; 158; 122; 181; 60; 53; 1; 208; 135; 44; 1; 0; 0; 0; 0; 92; 218].
Lemma two_objects_good : good two_objects.
Proof. good_tac. Qed.
Lemma object_refuted : exists b p s1 s2 rec ack, good b /\ decodes_to b p /\
  pSFRD p = Some (FSds [s1; s2]) /\ positions [s1] <> [] /\ positions [s2] <> [] /\ OID s1 = 7 /\ OID s2 = 9 /\
  (forall spare, process (mkSlice b spare) = PActs [ASave rec; AWrite ack]) /\
  length (nrLocs rec) = 2%nat /\ nrClientID rec = 9.
Proof.
  exists two_objects. do 5 eexists. split; [exact two_objects_good|].
  split; [apply decodes_to_nil; [exact two_objects_good|]; vm_compute; reflexivity|].
  split; [reflexivity|]. split; [discriminate|]. split; [discriminate|]. split; [reflexivity|]. split; [reflexivity|].
  split; [intros spare; rewrite process_spare by exact two_objects_good; vm_compute; reflexivity|].
  split; reflexivity.
Qed.

(** the same point north and south of the equator *)
Definition north : bytes := [1; 0; 0; 11; 0; 35; 0; 5; 0; 1; 246; 24; 0; 1; 0; 1; 7; 0; 0; 0; 2; 2; 16; 21; 0; 85; 145; 2; 16; 111; 28; 5; 158; 122; 181; 60; 53; 1; 208; 135; 44; 1; 0; 0; 0; 0; 121; 103].
Definition south : bytes := [1; 0; 0; 11; 0; 35; 0; 5; 0; 1; 246; 24; 0; 1; 0; 1; 7; 0; 0; 0; 2; 2; 16; 21; 0; 85; 145; 2; 16; 111; 28; 5; 158; 122; 181; 60; 53; 33; 208; 135; 44; 1; 0; 0; 0; 0; 133; 192].
Lemma north_good : good north. Proof. good_tac. Qed.
Lemma south_good : good south. Proof. good_tac. Qed.
Lemma hemisphere_refuted : exists b1 b2 p1 p2 l1 l2 e1 e2 rec ack,
  good b1 /\ good b2 /\ decodes_to b1 p1 /\ decodes_to b2 p2 /\
  pSFRD p1 = Some (FSds l1) /\ pSFRD p2 = Some (FSds l2) /\ positions l1 = [e1] /\ positions l2 = [e2] /\
  LAHS e1 = s0 /\ LAHS e2 = s1 /\
  (forall spare, process (mkSlice b1 spare) = PActs [ASave rec; AWrite ack]) /\
  (forall spare, process (mkSlice b2 spare) = PActs [ASave rec; AWrite ack]).
Proof.
  exists north, south. do 8 eexists. split; [exact north_good|]. split; [exact south_good|].
  split; [apply decodes_to_nil; [exact north_good|]; vm_compute; reflexivity|].
  split; [apply decodes_to_nil; [exact south_good|]; vm_compute; reflexivity|].
  split; [reflexivity|]. split; [reflexivity|]. split; [reflexivity|]. split; [reflexivity|].
  split; [reflexivity|]. split; [reflexivity|].
  split; intros spare; [rewrite process_spare by exact north_good|rewrite process_spare by exact south_good];
    vm_compute; reflexivity.
Qed.

(** ** Counters 110 and 111 *)
Definition counter (n v : N) : record_data :=
  {| SRT := 25; SRL := 4; SRD := SRAbsCntr {| CounterNumber := n; CounterValue := v |} |}.
(** the number the receiver saves for the low part [lo] and the high part [hi] *)
Definition combined (lo hi : N) : N :=
  lo / 2 ^ 24 + (lo / 2 ^ 16) mod 256 * 2 ^ 8 + (lo / 2 ^ 8) mod 256 * 2 ^ 16 + hi mod 256 * 2 ^ 24.
Lemma plain_subs pid l : forall ids st st', d_num (map SRD l) = false -> subs_loop pid ids st l = Some st' ->
  forall l2, subs_loop pid ids st (l ++ l2) = subs_loop pid ids st' l2.
Proof.
  induction l as [|rd l IH]; intros ids st st' Hn H l2.
  - injection H as <-. reflexivity.
  - cbn [app]. cbn [subs_loop] in *. cbn [map] in Hn. unfold d_num in Hn. cbn [existsb] in Hn. fold (d_num (map SRD l)) in Hn.
    apply orb_false_elim in Hn. destruct Hn as [Hn1 Hn2].
    destruct (SRD rd) eqn:Ed; try discriminate H; try (apply IH; assumption).
    unfold cntr_step in *. apply orb_false_elim in Hn1. destruct Hn1 as [Ha Hb]. rewrite Ha, Hb in *.
    apply IH; assumption.
Qed.
Lemma counters_ids lo hi : lo < 2 ^ 32 ->
  le_dec (firstn 3 (be_enc 4 lo) ++ [nth 3 (be_enc 4 hi) 0]) = combined lo hi.
Proof.
  intros H. unfold combined. cbn [be_enc rev le_enc app firstn nth]. cbn [le_dec].
  rewrite !N.div_div by discriminate. change (256 * (256 * 256)) with (2 ^ 24). change (256 * 256) with (2 ^ 16).
  change (2 ^ 8) with 256.
  assert ((lo / 2 ^ 24) mod 256 = lo / 2 ^ 24) as ->.
  { apply N.mod_small. apply N.div_lt_upper_bound; [discriminate|]. exact H. }
  lia.
Qed.

Lemma recs_loop_app pid a : forall st b, recs_loop pid st (a ++ b) =
  match recs_loop pid st a with Some st1 => recs_loop pid st1 b | None => None end.
Proof.
  induction a as [|x a IH]; intros st b; [reflexivity|]. cbn [app recs_loop].
  destruct (subs_loop pid (zeros 4) _ (RD x)); [apply IH|reflexivity].
Qed.
Lemma subs_none pid l ids st : d_conf (map SRD l) = false -> exists st', subs_loop pid ids st l = Some st'.
Proof. intros H. pose proof (subs_loop_spec pid l ids st) as Hs. rewrite H in Hs. destruct Hs as (st' & Hs & _). eauto. Qed.

(** the number saved when a record carries counter 110 and later 111 *)
Lemma subs_counters pid ids st st' pre c1 mid c2 post lo hi :
  SRD c1 = SRAbsCntr {| CounterNumber := 110; CounterValue := lo |} ->
  SRD c2 = SRAbsCntr {| CounterNumber := 111; CounterValue := hi |} ->
  d_num (map SRD pre) = false -> d_num (map SRD mid) = false -> d_num (map SRD post) = false -> lo < 2 ^ 32 ->
  subs_loop pid ids st (pre ++ c1 :: mid ++ c2 :: post) = Some st' -> nrPacketID (ap_exp st') = combined lo hi.
Proof.
  intros H1 H2 Np Nm Nq Hlo H.
  assert (d_conf (map SRD (pre ++ c1 :: mid ++ c2 :: post)) = false) as Hc.
  { pose proof (subs_loop_spec pid (pre ++ c1 :: mid ++ c2 :: post) ids st) as Hs. destruct (d_conf _); [congruence|reflexivity]. }
  rewrite !map_app in Hc. cbn [map] in Hc. rewrite map_app in Hc. cbn [map] in Hc. unfold d_conf in Hc.
  rewrite existsb_app in Hc. cbn [existsb] in Hc. rewrite existsb_app in Hc. cbn [existsb] in Hc.
  apply orb_false_elim in Hc. destruct Hc as [Hc1 Hc]. apply orb_false_elim in Hc. destruct Hc as [_ Hc].
  apply orb_false_elim in Hc. destruct Hc as [Hc2 _].
  destruct (subs_none pid pre ids st Hc1) as (st1 & S1). rewrite (plain_subs pid pre ids st st1 Np S1) in H.
  cbn [subs_loop] in H. rewrite H1 in H. cbn in H.
  match type of H with subs_loop _ ?i ?x _ = _ => set (ids2 := i) in H; set (st2 := x) in H end.
  destruct (subs_none pid mid ids2 st2 Hc2) as (st3 & S3). rewrite (plain_subs pid mid ids2 st2 st3 Nm S3) in H.
  cbn [subs_loop] in H. rewrite H2 in H. unfold cntr_step in H. cbn [CounterNumber CounterValue N.eqb Pos.eqb] in H.
  apply subs_loop_set in H. destruct H as (_ & _ & H). rewrite (H Nq).
  unfold set_exp. cbn [ap_exp]. unfold nr_set_pid. cbn [nrPacketID]. apply counters_ids, Hlo.
Qed.

Lemma counters_saved b p before s after pre c1 mid c2 post lo hi spare acts rec : good b -> decodes_to b p ->
  pSFRD p = Some (FSds (before ++ s :: after)) -> RD s = pre ++ c1 :: mid ++ c2 :: post ->
  SRD c1 = SRAbsCntr {| CounterNumber := 110; CounterValue := lo |} ->
  SRD c2 = SRAbsCntr {| CounterNumber := 111; CounterValue := hi |} ->
  d_num (map SRD pre) = false -> d_num (map SRD mid) = false -> d_num (map SRD post) = false ->
  numbered after = false -> lo < 2 ^ 32 ->
  process (mkSlice b spare) = PActs acts -> In (ASave rec) acts -> nrPacketID rec = combined lo hi.
Proof.
  intros Hg Hd Hl Hrd H1 H2 Np Nm Nq Na Hlo Hp Hin.
  unfold process in Hp. rewrite Hd, Hl in Hp.
  destruct (pPT p =? PtAppdataPacket). 2:{ injection Hp as <-. contradiction. }
  rewrite recs_loop_app in Hp. destruct (recs_loop _ _ before) as [st0|]; [|injection Hp as <-; contradiction].
  cbn [recs_loop] in Hp.
  destruct (subs_loop (pPID p) (zeros 4) _ (RD s)) as [st1|] eqn:Hs; [|injection Hp as <-; contradiction].
  rewrite Hrd in Hs. apply (subs_counters _ _ _ _ _ _ _ _ _ lo hi H1 H2 Np Nm Nq Hlo) in Hs.
  destruct (recs_loop (pPID p) st1 after) as [st2|] eqn:Hr; [|injection Hp as <-; contradiction].
  apply recs_loop_set in Hr. destruct Hr as (_ & _ & Hr). rewrite <- Hs, <- (Hr Na).
  unfold app_reply in Hp. destruct (create_pt_response _ _ _ _) as [resp| | |]; try discriminate; injection Hp as <-.
  - apply in_app_or in Hin. destruct Hin as [Hin|[Hin|Hin]]; [|discriminate|].
    + destruct (ap_save st2); [destruct Hin as [Hin|[]]; congruence|contradiction].
    + destruct (ap_rescode st2); [contradiction|destruct Hin as [Hin|[]]; discriminate].
  - destruct (ap_save st2); [destruct Hin as [Hin|[]]; congruence|contradiction].
Qed.

Lemma combined_correct lo hi : lo < 2 ^ 24 -> hi < 256 ->
  (combined lo hi = hi * 2 ^ 24 + lo <-> lo mod 256 = 0 /\ (lo / 2 ^ 8) mod 256 = lo / 2 ^ 16).
Proof.
  intros Hl Hh. unfold combined.
  assert (lo / 2 ^ 24 = 0) as -> by (apply N.div_small; exact Hl).
  assert (hi mod 256 = hi) as -> by (apply N.mod_small; exact Hh).
  assert (lo / 2 ^ 16 < 256) as Hb2 by (apply N.div_lt_upper_bound; [discriminate|exact Hl]).
  assert ((lo / 2 ^ 16) mod 256 = lo / 2 ^ 16) as -> by (apply N.mod_small, Hb2).
  assert (lo = lo mod 256 + 256 * ((lo / 2 ^ 8) mod 256) + 65536 * (lo / 2 ^ 16)) as Hlo.
  { change (2 ^ 16) with (2 ^ 8 * 2 ^ 8). rewrite <- N.div_div by discriminate. change (2 ^ 8) with 256.
    pose proof (N.div_mod lo 256 ltac:(discriminate)). pose proof (N.div_mod (lo / 256) 256 ltac:(discriminate)). lia. }
  pose proof (N.mod_lt lo 256 ltac:(discriminate)) as Ha. pose proof (N.mod_lt (lo / 2 ^ 8) 256 ltac:(discriminate)) as Hc.
  revert Hlo Ha Hc Hb2. generalize (lo mod 256), ((lo / 2 ^ 8) mod 256), (lo / 2 ^ 16). intros a c d -> Ha Hc Hd. clear Hl.
  change (2 ^ 8) with 256. change (2 ^ 16) with 65536. change (2 ^ 24) with 16777216.
  split; intros Hx; lia.
Qed.

Definition numbered_packet : bytes := [1; 0; 0; 11; 0; 49; 0; 5; 0; 1; 29; 38; 0; 1; 0; 1; 7; 0; 0; 0; 2; 2; 16; 21; 0; 85; 145; 2; 16; 111; 28; 5; 158; 122; 181; 60; 53; 1; 208; 135; 44; 1; 0; 0; 0; 0; 25; 4; 0; 110; 1; 2; 3; 25; 4; 0; 111; 4; 0; 0; 184; 128].
Lemma numbered_good : good numbered_packet. Proof. good_tac. Qed.
(** low part 0x030201, high part 4: saved as 0x04020300 *)
Lemma counters_refuted : exists b p s e c1 c2 rec ack, good b /\ decodes_to b p /\
  pSFRD p = Some (FSds [s]) /\ map SRD (RD s) = [SRPos e; SRAbsCntr c1; SRAbsCntr c2] /\
  CounterNumber c1 = 110 /\ CounterValue c1 = 0x030201 /\ CounterNumber c2 = 111 /\ CounterValue c2 = 4 /\
  (forall spare, process (mkSlice b spare) = PActs [ASave rec; AWrite ack]) /\
  nrPacketID rec = 0x04020300.
Proof.
  exists numbered_packet. do 7 eexists. split; [exact numbered_good|].
  split; [apply decodes_to_nil; [exact numbered_good|]; vm_compute; reflexivity|].
  split; [reflexivity|]. split; [reflexivity|]. split; [reflexivity|]. split; [reflexivity|]. split; [reflexivity|].
  split; [reflexivity|].
  split; [intros spare; rewrite process_spare by exact numbered_good; vm_compute; reflexivity|]. reflexivity.
Qed.

(** ** Crashing packets *)
(** a 65527-byte body: HL + FDL does not fit 16 bits *)
Definition crash_packet : bytes :=
  [1; 0; 0; 11; 0; 247; 255; 0; 0; 1] ++ [crc8 [1; 0; 0; 11; 0; 247; 255; 0; 0; 1]] ++ repeat 0 (N.to_nat 65529).
Lemma crash_framed : framed crash_packet.
Proof.
  split; [vm_compute; reflexivity|]. split; [reflexivity|]. split; [vm_compute; reflexivity|].
  split; vm_compute; [discriminate|reflexivity].
Qed.
Lemma crash_body :
  match frame_decode (byte_at crash_packet 9) (frame_of crash_packet) with Ok _ => true | _ => false end = true.
Proof. vm_compute. reflexivity. Qed.
Lemma crash_panics p spare : snd (pkg_decode p (mkSlice crash_packet spare)) = DPanic.
Proof.
  apply panic_iff; [apply crash_framed|]. unfold panics. cbv zeta.
  assert (length crash_packet = N.to_nat 65540) as Hl.
  { unfold crash_packet. rewrite !app_length, repeat_length. cbn [length]. lia. }
  assert (hcs_pos crash_packet = 10%nat) as Hh by reflexivity.
  assert (decl_hl crash_packet = 11) as H3 by reflexivity.
  assert (decl_fdl crash_packet = 65527) as H5 by reflexivity.
  assert (frame_pos crash_packet = 11%nat) as Hfp by reflexivity.
  rewrite Hh, Hl, H3, H5, Hfp. split; [lia|]. right.
  change (u8 (11 + 255)) with 10. unfold blen. rewrite app_length, Hl. split; [lia|].
  split. { unfold area. change (N.to_nat 0) with 0%nat. cbn [skipn]. rewrite firstn_app.
           rewrite Hl. replace (N.to_nat 10 - N.to_nat 65540)%nat with 0%nat by lia. cbn [firstn]. rewrite app_nil_r. reflexivity. }
  split; [lia|]. split; [right; reflexivity|]. split; [|left; lia].
  pose proof crash_body as Hbd. destruct (frame_decode _ _) as [f| | |]; [exists f; reflexivity|discriminate..].
Qed.
Lemma crash_step c s : concat (ci_chunks c) = crash_packet ++ s -> conn_step c = SCrashed.
Proof.
  intros Hc. destruct (conn_step_framed c crash_packet s crash_framed Hc) as (rest & spare & _ & ->).
  assert (process (mkSlice crash_packet spare) = PCrash) as ->; [|reflexivity].
  apply process_crash; [apply crash_framed|apply framed_ten, crash_framed|apply crash_panics].
Qed.
Lemma crash_server_gen b stores others sched s e :
  (forall c, concat (ci_chunks c) = b ++ s -> conn_step c = SCrashed) ->
  let g := grun stores (0%nat :: sched) (ginit (mkIn [b ++ s] e :: others)) in
  g_crashed g = true /\ g_trace g = [].
Proof.
  intros Hc. cbv zeta. cbn [grun fold_left]. fold (grun stores sched (gstep stores 0 (ginit (mkIn [b ++ s] e :: others)))).
  assert (gstep stores 0 (ginit (mkIn [b ++ s] e :: others)) =
    mkG (g_conns (ginit (mkIn [b ++ s] e :: others))) [] true) as ->.
  { unfold gstep. cbn [ginit g_crashed g_conns map nth_error cs_done cs_pend cs_in].
    rewrite Hc; [reflexivity|]. cbn [ci_chunks concat]. apply app_nil_r. }
  rewrite crashed_run by reflexivity. split; reflexivity.
Qed.
Lemma crash_server stores others sched s e :
  let g := grun stores (0%nat :: sched) (ginit (mkIn [crash_packet ++ s] e :: others)) in
  g_crashed g = true /\ g_trace g = [].
Proof. exact (crash_server_gen crash_packet stores others sched s e (fun c => crash_step c s)). Qed.
(** twelve bytes suffice when append leaves little spare capacity *)
Definition small_crash : bytes := [1; 0; 0; 0; 0; 10; 0; 0; 0; 0; 0; 0].
Lemma small_crash_step c s : (length (append_spare 12) < 243)%nat ->
  concat (ci_chunks c) = small_crash ++ s -> conn_step c = SCrashed.
Proof.
  intros Ha Hc. unfold conn_step.
  pose proof (read_full_spec header_len c) as H. rewrite Hc in H. cbn [app small_crash length Nat.leb header_len firstn skipn] in H.
  destruct H as (rest & -> & Hr). cbn [nth N.eqb Pos.eqb negb].
  change (N.to_nat (tail_len [1; 0; 0; 0; 0; 10; 0; 0; 0; 0])) with 2%nat.
  pose proof (read_full_spec 2 (mkIn rest (ci_end c))) as H. cbn [ci_chunks] in H. rewrite Hr in H. cbn [length Nat.leb firstn] in H.
  destruct H as (rest' & -> & _).
  unfold recv_slice. cbn [app length]. set (spare := append_spare 12) in *.
  assert (process (mkSlice [1; 0; 0; 0; 0; 10; 0; 0; 0; 0; 0; 0] spare) = PCrash) as ->; [|reflexivity].
  apply process_crash; [reflexivity|cbn; lia|]. apply panic_iff; [reflexivity|].
  unfold panics. cbv zeta. split; [cbn; lia|]. left. unfold blen. rewrite app_length. cbn [length].
  change (u8 (decl_hl [1; 0; 0; 0; 0; 10; 0; 0; 0; 0; 0; 0] + 255)) with 255. lia.
Qed.
Lemma small_crash_server stores others sched s e : (length (append_spare 12) < 243)%nat ->
  let g := grun stores (0%nat :: sched) (ginit (mkIn [small_crash ++ s] e :: others)) in
  g_crashed g = true /\ g_trace g = [].
Proof. intros Ha. exact (crash_server_gen small_crash stores others sched s e (fun c => small_crash_step c s Ha)). Qed.

(** ** A storage that always fails *)
Lemma ack_despite_failure : exists b p l rec ack svc sched, good b /\ decodes_to b p /\
  pSFRD p = Some (FSds l) /\ positions l <> [] /\
  events_of 0 (g_trace (grun [fun _ => SvErr] sched (ginit [mkIn [b] COpen]))) =
    [ECall 0 rec SvErr; ESaved rec SvErr; EWrite ack] /\
  is_ack ack (pPID p) 0 svc (map RN l).
Proof.
  destruct (process_spec north [] (proj1 north_good) (proj2 north_good)) as (acts & Hp & Ha).
  assert (exists p l, pkg_decode pkg0 (mkSlice north []) = (p, DRet 0 false) /\ pSFRD p = Some (FSds l) /\
     positions l <> [] /\ confirms l = false /\ credentials l = false) as (p & l & Hd & Hl & Hne & Hc & Hcr).
  { do 2 eexists. split; [vm_compute; reflexivity|]. split; [reflexivity|]. split; [discriminate|]. split; reflexivity. }
  destruct (accepted_actions _ _ _ _ north_good Ha Hd Hl) as (Hdt & _ & Happ).
  unfold app_actions in Happ. rewrite Hc, Hcr in Happ.
  destruct Happ as (rec & ack & Hacts & _ & _ & _ & _ & _ & _ & _ & _ & _ & svc & Hi & _).
  exists north, p, l, rec, ack, svc, [0; 0; 0]%nat.
  split; [exact north_good|]. split; [exact Hdt|]. split; [exact Hl|]. split; [exact Hne|]. split; [|exact Hi].
  destruct (positions l) as [|e0 es]; [congruence|]. cbn [app] in Hacts. subst acts.
  destruct (conn_step_framed (mkIn [north] COpen) north [] (proj1 north_good) eq_refl) as (rest & spare & _ & Hs).
  rewrite process_spare, Hp in Hs by exact north_good.
  cbn [grun fold_left]. unfold gstep at 3. cbn [ginit map g_crashed g_conns nth_error cs_done cs_pend cs_in].
  rewrite Hs. reflexivity.
Qed.

(** ** Two storages, two clients, one bad interleaving *)
Lemma packet_step b e acts : good b -> process (mkSlice b []) = PActs acts ->
  exists rest, conn_step (mkIn [b] e) = SPacket acts rest.
Proof.
  intros Hg Hp. destruct (conn_step_framed (mkIn [b] e) b [] (proj1 Hg)) as (rest & spare & _ & Hs); [reflexivity|].
  rewrite process_spare, Hp in Hs by exact Hg. exists rest. exact Hs.
Qed.
Lemma order_gen b1 b2 r1 r2 a1 a2 rest1 rest2 :
  conn_step (mkIn [b1] CEof) = SPacket [ASave r1; AWrite a1] rest1 ->
  conn_step (mkIn [b2] CEof) = SPacket [ASave r2; AWrite a2] rest2 ->
  let tr := g_trace (grun [fun _ => SvOk; fun _ => SvOk] [0; 0; 1; 1; 1; 0]%nat (ginit [mkIn [b1] CEof; mkIn [b2] CEof])) in
  history 0 tr = [r1; r2] /\ history 1 tr = [r2; r1].
Proof.
  intros S1 S2. cbv zeta. set (st := [fun _ : list nav_record => SvOk; fun _ => SvOk]).
  set (c2 := mkCs (mkIn [b2] CEof) [] 0 false).
  set (c1' := fun k => mkCs (mkIn rest1 CEof) [ASave r1; AWrite a1] k false).
  set (c2' := fun k => mkCs (mkIn rest2 CEof) [ASave r2; AWrite a2] k false).
  assert (gstep st 0 (ginit [mkIn [b1] CEof; mkIn [b2] CEof]) = mkG [c1' 0%nat; c2] [] false) as E1.
  { unfold gstep, ginit. cbn [g_crashed g_conns map nth_error cs_done cs_pend cs_in]. rewrite S1. reflexivity. }
  assert (forall k tr, (k < 2)%nat -> gstep st 0 (mkG [c1' k; c2] tr false) = mkG [c1' (S k); c2] (tr ++ [(0%nat, ECall k r1 SvOk)]) false) as E2.
  { intros [|[|k]] tr Hk; [reflexivity|reflexivity|lia]. }
  assert (forall k tr, (k < 2)%nat -> gstep st 0 (mkG [c1' k; c2' 2%nat] tr false) = mkG [c1' (S k); c2' 2%nat] (tr ++ [(0%nat, ECall k r1 SvOk)]) false) as E2'.
  { intros [|[|k]] tr Hk; [reflexivity|reflexivity|lia]. }
  assert (forall k tr, gstep st 1 (mkG [c1' k; c2] tr false) = mkG [c1' k; c2' 0%nat] tr false) as E3.
  { intros k tr. unfold gstep. cbn [g_crashed g_conns nth_error cs_done cs_pend cs_in c2]. rewrite S2. reflexivity. }
  assert (forall j k tr, (k < 2)%nat -> gstep st 1 (mkG [c1' j; c2' k] tr false) = mkG [c1' j; c2' (S k)] (tr ++ [(1%nat, ECall k r2 SvOk)]) false) as E4.
  { intros j [|[|k]] tr Hk; [reflexivity|reflexivity|lia]. }
  unfold grun. cbn [fold_left]. rewrite E1, E2 by lia. rewrite E3, !E4 by lia. rewrite E2' by lia.
  cbn [g_trace]. split; reflexivity.
Qed.
Lemma order_refuted : exists b1 b2 r1 r2 sched, good b1 /\ good b2 /\ r1 <> r2 /\
  let tr := g_trace (grun [fun _ => SvOk; fun _ => SvOk] sched (ginit [mkIn [b1] CEof; mkIn [b2] CEof])) in
  history 0 tr = [r1; r2] /\ history 1 tr = [r2; r1].
Proof.
  assert (exists r1 a1, process (mkSlice north []) = PActs [ASave r1; AWrite a1] /\ nrClientID r1 = 7) as (r1 & a1 & P1 & C1).
  { do 2 eexists. split; [vm_compute; reflexivity|reflexivity]. }
  assert (exists r2 a2, process (mkSlice two_objects []) = PActs [ASave r2; AWrite a2] /\ nrClientID r2 = 9) as (r2 & a2 & P2 & C2).
  { do 2 eexists. split; [vm_compute; reflexivity|reflexivity]. }
  destruct (packet_step _ CEof _ north_good P1) as (rest1 & S1).
  destruct (packet_step _ CEof _ two_objects_good P2) as (rest2 & S2).
  exists north, two_objects, r1, r2, [0; 0; 1; 1; 1; 0]%nat.
  split; [exact north_good|]. split; [exact two_objects_good|]. split; [congruence|].
  cbv zeta. exact (order_gen _ _ _ _ _ _ _ _ S1 S2).
Qed.
(** a storage that panics *)
Lemma panic_crashes (store : saver) others sched : (forall h, store h = SvPanic) ->
  g_crashed (grun [store] (0%nat :: 0%nat :: sched) (ginit (mkIn [north] COpen :: others))) = true.
Proof.
  intros Hst.
  assert (exists r1 a1, process (mkSlice north []) = PActs [ASave r1; AWrite a1]) as (r1 & a1 & P1).
  { do 2 eexists. vm_compute. reflexivity. }
  destruct (packet_step _ COpen _ north_good P1) as (rest1 & S1).
  clear P1. generalize dependent north. intros b S1.
  cbn [grun fold_left]. fold (grun [store] sched).
  assert (gstep [store] 0 (ginit (mkIn [b] COpen :: others)) =
    mkG (mkCs (mkIn rest1 COpen) [ASave r1; AWrite a1] 0 false :: map (fun c => mkCs c [] 0 false) others) [] false) as ->.
  { unfold gstep, ginit. cbn [g_crashed g_conns map nth_error cs_done cs_pend cs_in]. rewrite S1. reflexivity. }
  match goal with |- context [fold_left _ sched ?g] => assert (g_crashed g = true) as Hc end.
  { unfold gstep. cbn [g_crashed g_conns nth_error cs_done cs_pend cs_at]. rewrite Hst. reflexivity. }
  match goal with |- context [fold_left _ sched ?g] => change (g_crashed (grun [store] sched g) = true) end.
  rewrite crashed_run by exact Hc. exact Hc.
Qed.
End WitnessServer.
