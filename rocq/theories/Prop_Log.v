(** * Prop_Log: C134 (records exported to the log), C135 (nothing is lost
    silently), C136 (logins are not written down). *)
From Coq Require Import String List Lia ZifyBool ZifyN ZifyNat.
From Verif Require Import GoBase Crc Float64 SubRecords Records Package Storage Connectors Json Server Config Main Logbook
  Spec_Storage Spec_Bits Spec_Wf Spec_Rec Spec_Pkg Spec_Server Spec_Stream Spec_Log BaseFacts PkgFacts PkgFacts2 ServerFacts ServerFacts2 ServerFacts3 ServerFacts4 StreamFacts GlueServer
  Vectors WitnessServer LogFacts.

(** ** C134: without a storage, what is received is in the log. *)

(** Not so at WARN or ERROR level: a receiver without a storage section starts,
    reports every record as saved, and writes none of them anywhere. *)
Definition silent_config (lvl : gostr) : config := mkConfig (mkSettings (text "0.0.0.0") (text "6000") 30 lvl) [].
Theorem C134_records_in_log_refuted : forall lvl, In lvl [text "WARN"; text "ERROR"] ->
  forall lib path, path <> [] -> exists addr ttl level,
  main_start lib (fun _ => Some (silent_config lvl)) path = StServe addr ttl level [CnLog] /\
  forall ft time n doc, to_bytes ft time n = Some doc ->
    connector_save lib CnLog (Some doc) = (None, SvOk) /\ log_export level (Some doc) = [].
Proof.
  intros lvl Hl lib path Hp. destruct path as [|x path]; [congruence|]. eexists _, _, _. split; [reflexivity|].
  intros ft time n doc _. split; [reflexivity|]. destruct Hl as [<-|[<-|[]]]; reflexivity.
Qed.
(** Exactly: a record is exported unless the configured level is WARN or ERROR. *)
Theorem C134_exported_exactly : forall lib new path c addr ttl level stores doc,
  new path = Some c -> main_start lib new path = StServe addr ttl level stores ->
  (log_export level (Some doc) = [doc] <-> cfLogLevel (cg_settings c) <> text "WARN" /\ cfLogLevel (cg_settings c) <> text "ERROR").
Proof.
  intros lib new path c addr ttl level stores doc Hn Hm. unfold main_start in Hm. destruct path as [|x path]; [discriminate|].
  rewrite Hn in Hm. assert (Hl : level = get_level (cg_settings c)) by congruence. subst level. clear Hm.
  unfold get_level, log_export, enabled. set (v := cfLogLevel (cg_settings c)).
  change str_DEBUG with (text "DEBUG"). change str_INFO with (text "INFO"). change str_WARN with (text "WARN"). change str_ERROR with (text "ERROR").
  destruct (str_eqb_spec v (text "DEBUG")) as [Hd _]. destruct (str_eqb v (text "DEBUG")).
  { rewrite Hd by reflexivity. split; [intros _; split; discriminate|reflexivity]. }
  destruct (str_eqb_spec v (text "INFO")) as [Hi _]. destruct (str_eqb v (text "INFO")).
  { rewrite Hi by reflexivity. split; [intros _; split; discriminate|reflexivity]. }
  destruct (str_eqb_spec v (text "WARN")) as [Hw Hw']. destruct (str_eqb v (text "WARN")).
  { split; [discriminate|]. intros [H _]. exfalso. apply H, Hw. reflexivity. }
  destruct (str_eqb_spec v (text "ERROR")) as [He He']. destruct (str_eqb v (text "ERROR")).
  { split; [discriminate|]. intros [_ H]. exfalso. apply H, He. reflexivity. }
  split; [|reflexivity]. intros _. split; intros H; [specialize (Hw' H)|specialize (He' H)]; discriminate.
Qed.
Example C134_example : forall lib, main_start lib (fun _ => Some (silent_config (text "INFO"))) (text "c.yaml") =
  StServe (text "0.0.0.0:6000") 30000000000 InfoLevel [CnLog] /\ log_export InfoLevel (Some [123; 125]) = [[123; 125]].
Proof. intros lib. split; reflexivity. Qed.

(** ** C135: nothing is lost silently. *)

(** The log model accompanies the server model: without the lines it does what
    the handler does. *)
Theorem C135_same_actions : forall (E : go_env) out c, in_ok c ->
  acts_of (fst (conn_diary out c)) = fst (conn_exec c) /\ snd (conn_diary out c) = snd (conn_exec c).
Proof.
  intros E out c Hok. unfold conn_diary, conn_exec. set (f := S (length (concat (ci_chunks c)))).
  destruct (doings_run out f 0 c) as [H1 H2].
  assert (Hf : snd (conn_run f c) <> FinFuel).
  { intros Hf. assert (H := exec_received _ c (le_n _) Hok). unfold conn_exec in H. fold f in H. rewrite Hf in H.
    remember FinFuel as g. clear -H Heqg. induction H; try discriminate; auto; destruct e; discriminate. }
  specialize (H2 Hf). destruct (conn_doings out f 0 c) as [l g]. cbn [fst snd] in *. split; [exact H1|exact H2].
Qed.
(** Which lines the logger lets through. *)
Theorem C135_levels : forall set l, enabled set (line_level l) = appears set l.
Proof. exact appears_enabled. Qed.
(** Not so: a packet with a position and a confirmation of a record is accepted,
    but neither stored nor acknowledged, and nothing is said at WARN level; and a
    peer that does not speak EGTS is dropped with nothing said at ERROR level. *)
Definition mixed : bytes := [1; 0; 0; 11; 0; 41; 0; 5; 0; 1; 95; 30; 0; 1; 0; 1; 7; 0; 0; 0; 2; 2; 16; 21; 0; 85; 145; 2; 16; 111; 28; 5; 158; 122; 181; 60; 53; 1; 208; 135; 44; 1; 0; 0; 0; 0; 0; 3; 0; 1; 0; 0; 98; 89].
Ltac good_packet := apply good_std; [split; [vm_compute; reflexivity|]; split; [vm_compute; reflexivity|];
   split; [vm_compute; reflexivity|]; vm_compute; split; [discriminate|reflexivity]|vm_compute; reflexivity].
Lemma mixed_good {E : go_env} : good mixed. Proof. good_packet. Qed.
Lemma good_not_deadly {E : go_env} b : good b -> ~ deadly b.
Proof.
  intros [Hf Hs] Hd. apply panic_iff with (p := pkg0) in Hd; [|apply (framed_unit b Hf)]. exact (Hs (room b) Hd).
Qed.
Lemma confirm_unseen {E : go_env} b p l : good b -> decodes_to b p -> pSFRD p = Some (FSds l) -> pPT p = 1 -> confirms l = true ->
  forall out c, concat (ci_chunks c) = b -> ci_end c = COpen ->
    acts_of (fst (conn_diary out c)) = [] /\ shown_at WarnLevel (fst (conn_diary out c)) = [].
Proof.
  intros Hg Hdt Hl Hpt Hc out c Hcc He. assert (U := framed_unit b (proj1 Hg)). assert (L : (10 <= length b)%nat) by apply U.
  unfold conn_diary. rewrite Hcc. destruct (length b) as [|n] eqn:Hn; [lia|].
  destruct (doings_unit out (S n) 0 c b [] U) as (rest & Hr & Hst); [rewrite app_nil_r; exact Hcc|].
  assert (Hx : exists g, conn_doings out (S (S n)) 0 c = (match process_doings (out 0%nat) (mkSlice b (room b)) with Some ds => ds | None => [] end, g)).
  { rewrite Hst. destruct (process_doings (out 0%nat) (mkSlice b (room b))) as [ds|]; [|eexists; reflexivity].
    rewrite doings_no_header by (cbn [ci_chunks]; rewrite Hr; cbn; lia). cbn [ci_chunks ci_end]. rewrite Hr, He. eexists. cbn [header_missing map]. rewrite app_nil_r. reflexivity. }
  destruct Hx as (g & ->). cbn [fst]. clear Hst.
  destruct (unit_troubles (out 0%nat) b U (good_not_deadly b Hg)) as (ds & acts & Hp & -> & Ha & Ht).
  assert (Hdr := Hdt (room b)). assert (acts = []).
  { unfold process in Hp. rewrite Hdr, Hpt, Hl in Hp. change (1 =? PtAppdataPacket) with true in Hp. cbn match in Hp.
    assert (Hrl := recs_loop_spec (pPID p) l (app_init (pPID p))). rewrite Hc in Hrl. rewrite Hrl in Hp. congruence. }
  split; [change (acts_of ds = []); congruence|]. change (shown_at WarnLevel ds = []).
  inversion Ht as [? ? ? ? K|? ? ? K1 K2 K3 K4|?|?|?]; try reflexivity; exfalso.
  + rewrite Hdr in K. discriminate.
  + rewrite Hdr in K1. assert (p0 = p) by congruence. subst p0. rewrite Hl in K3. assert (l0 = l) by congruence. subst l0. congruence.
Qed.
Lemma mixed_decodes (E : go_env) : exists p l, decodes_to mixed p /\ pSFRD p = Some (FSds l) /\ positions l <> [] /\ pPT p = 1 /\ confirms l = true.
Proof.
  do 2 eexists. split; [apply decodes_to_nil; [exact mixed_good|]; vm_compute; reflexivity|].
  split; [reflexivity|]. split; [discriminate|]. split; reflexivity.
Qed.
Theorem C135_nothing_lost_silently_refuted : forall E : go_env,
  (exists b p l, good b /\ decodes_to b p /\ pSFRD p = Some (FSds l) /\ positions l <> [] /\
   forall out c, concat (ci_chunks c) = b -> ci_end c = COpen ->
     acts_of (fst (conn_diary out c)) = [] /\ shown_at WarnLevel (fst (conn_diary out c)) = []) /\
  (forall s e, alien s -> forall out c, concat (ci_chunks c) = s -> ci_end c = e ->
     snd (conn_diary out c) = FinClosed /\ shown_at ErrorLevel (fst (conn_diary out c)) = []).
Proof.
  intros E. split.
  - destruct (mixed_decodes E) as (p & l & Hd & Hl & Hne & Hpt & Hc).
    exists mixed, p, l. split; [exact mixed_good|]. split; [exact Hd|]. split; [exact Hl|]. split; [exact Hne|].
    exact (confirm_unseen mixed p l mixed_good Hd Hl Hpt Hc).
  - intros s e (Hb & Hl & H0) out c Hc He. unfold conn_diary. rewrite doings_alien by (rewrite Hc; assumption). split; reflexivity.
Qed.
(** Exactly what the log receives at WARN level from any stream whatever, in
    Spec_Log's words; at ERROR level the same without the two warnings. *)
Theorem C135_noted_exactly : forall (E : go_env) out c, in_ok c ->
  noted out 0 (concat (ci_chunks c)) (ci_end c) (shown_at WarnLevel (fst (conn_diary out c))).
Proof.
  intros E out c Hok. unfold conn_diary.
  assert (H := doings_noted out (length (concat (ci_chunks c))) (S (length (concat (ci_chunks c)))) 0 c (le_n _) (le_n _) Hok).
  destruct (conn_doings out _ 0 c) as [l f]. cbn [fst] in *. exact H.
Qed.
Theorem C135_error_level : forall ds,
  shown_at ErrorLevel ds = filter (fun l => match l with LnAlien | LnTimeout => false | _ => true end) (shown_at WarnLevel ds).
Proof.
  intros ds. unfold shown_at. induction (lines_of ds) as [|l ls IH]; [reflexivity|]. cbn [filter].
  destruct l; cbn [appears line_level filter]; rewrite IH; reflexivity.
Qed.
(** At INFO level: the service of every record that is looked at, in order. *)
Theorem C135_services_exactly : forall (E : go_env) out c pkts s, carries c pkts s ->
  flat_map service_of (lines_of (fst (conn_diary out c))) = flat_map services pkts.
Proof.
  intros E out c pkts s Hc. unfold conn_diary.
  assert (H := stream_services out pkts (S (length (concat (ci_chunks c)))) 0 c s Hc (le_n _)).
  destruct (conn_doings out _ 0 c) as [l f]. cbn [fst] in *. exact H.
Qed.
(** Exactly what the log receives at INFO level, which any unknown
    or missing log_level selects (config.go:44): the connection, then for every packet the services
    that are looked at and its troubles. *)
Theorem C135_info_exactly : forall (E : go_env) out c, in_ok c ->
  exists ls, told out 0 (concat (ci_chunks c)) (ci_end c) ls /\ shown_at InfoLevel (fst (conn_diary out c)) = LnConnected :: ls.
Proof.
  intros E out c Hok. unfold conn_diary.
  assert (H := doings_told out (length (concat (ci_chunks c))) (S (length (concat (ci_chunks c)))) 0 c (le_n _) (le_n _) Hok).
  destruct (conn_doings out _ 0 c) as [l f]. cbn [fst] in *. exists (shown_at InfoLevel l). split; [exact H|reflexivity].
Qed.
Example C135_services_example : forall E : go_env, carries (mkIn [mixed] COpen) [mixed] [] /\ services mixed = [2].
Proof.
  intros E. split; [|vm_compute; reflexivity]. split; [reflexivity|]. split; [constructor; [exact mixed_good|constructor]|].
  left. split; [reflexivity|]. left. cbn. lia.
Qed.
(** A refused packet, then a good one whose storage fails, then a beginning and
    the end: three lines, at both levels. *)
Lemma three_lines {E : go_env} b1 b2 s p1 code p2 l : good b1 -> good b2 ->
  pkg_decode pkg0 (mkSlice b1 (room b1)) = (p1, DRet code true) ->
  pkg_decode pkg0 (mkSlice b2 (room b2)) = (p2, DRet 0 false) -> pSFRD p2 = Some (FSds l) -> pPT p2 = 1 ->
  positions l <> [] -> confirms l = false ->
  bytes_ok s = true -> (10 <= length s)%nat -> byte_at s 0 = 1 -> blen s < unit_len s ->
  shown_at ErrorLevel (fst (conn_diary (fun _ => SvErr) (mkIn [b1; b2; s] CEof))) = [LnRefused; LnSaveErr; LnBodyErr].
Proof.
  intros G1 G2 D1 D2 Hl Hpt Hne Hc S1 S2 S3 S4. set (c := mkIn [b1; b2; s] CEof).
  assert (Hs : concat (ci_chunks c) = b1 ++ (b2 ++ s)) by (cbn [c ci_chunks concat]; rewrite app_nil_r; reflexivity).
  assert (U1 := framed_unit b1 (proj1 G1)). assert (U2 := framed_unit b2 (proj1 G2)).
  assert (L : exists f, S (length (concat (ci_chunks c))) = S (S (S f))).
  { exists (length (concat (ci_chunks c)) - 2)%nat. rewrite Hs, !app_length. lia. }
  unfold conn_diary. destruct L as (f & ->).
  destruct (doings_unit (fun _ => SvErr) (S (S f)) 0 c b1 _ U1 Hs) as (r & Hr & ->).
  destruct (doings_unit (fun _ => SvErr) (S f) 1 (mkIn r (ci_end c)) b2 s U2 Hr) as (r' & Hr' & ->).
  rewrite doings_cut by (cbn [ci_chunks]; rewrite ?Hr'; assumption).
  destruct (unit_troubles SvErr b1 U1 (good_not_deadly b1 G1)) as (ds & acts & _ & -> & _ & Ht).
  destruct (unit_troubles SvErr b2 U2 (good_not_deadly b2 G2)) as (ds' & acts' & _ & -> & _ & Ht').
  assert (H1 : shown_at WarnLevel ds = [LnRefused]).
  { inversion Ht as [|? ? ? K|? ? ? ? K|? ? ? ? K|? ? ? K]; try reflexivity; rewrite D1 in K; discriminate. }
  assert (H2 : shown_at WarnLevel ds' = [LnSaveErr]).
  { inversion Ht' as [? ? ? ? K|? ? ? K|? ? ? ? K K1 K2 K3 K4 K5|? ? ? ? K K1 K2 K3|? ? ? K K1]; try reflexivity; rewrite D2 in K; try discriminate.
    - congruence.
    - assert (p = p2) by congruence. subst p. rewrite Hl in K2. assert (l0 = l) by congruence. subst l0. destruct K3; congruence.
    - assert (p = p2) by congruence. subst p. congruence. }
  rewrite C135_error_level. cbn [fst ci_end c body_missing map].
  change (DoLog LnConnected :: ds ++ ds' ++ [DoLog LnBodyErr]) with ([DoLog LnConnected] ++ ds ++ ds' ++ [DoLog LnBodyErr]).
  rewrite !shown_app, H1, H2. reflexivity.
Qed.
Definition damaged : bytes := [1; 0; 3; 11; 0; 3; 0; 137; 0; 0; 75; 21; 56; 0; 51; 232].
Example C135_example : forall E : go_env,
  shown_at ErrorLevel (fst (conn_diary (fun _ => SvErr) (mkIn [damaged; north; firstn 20 north] CEof))) = [LnRefused; LnSaveErr; LnBodyErr].
Proof.
  intros E. assert (Gd : good damaged) by good_packet.
  assert (exists p code, pkg_decode pkg0 (mkSlice damaged []) = (p, DRet code true)) as (p1 & code & D1)
    by (do 2 eexists; vm_compute; reflexivity).
  rewrite <- (framed_spare damaged (room damaged) [] (proj1 Gd) (proj2 Gd)) in D1.
  assert (exists p l, decodes_to north p /\ pSFRD p = Some (FSds l) /\ pPT p = 1 /\ positions l <> [] /\ confirms l = false)
    as (p & l & Hd & Hl & Hpt & Hne & Hc).
  { do 2 eexists. split; [apply decodes_to_nil; [exact north_good|]; vm_compute; reflexivity|].
    split; [reflexivity|]. split; [reflexivity|]. split; [discriminate|reflexivity]. }
  apply (three_lines damaged north (firstn 20 north) p1 code p l Gd north_good D1 (Hd (room north)) Hl Hpt Hne Hc);
    [vm_compute; reflexivity|apply Nat.leb_le; vm_compute; reflexivity|reflexivity|vm_compute; reflexivity].
Qed.

(** ** C136: user names and passwords that devices send are neither logged (at
    any level), nor stored, nor echoed: two peers whose packets differ only in
    them cause the same log lines, records and replies, whatever the storages
    do and however the bytes arrive. *)
Theorem C136_logins_not_written : forall (E : go_env) out pkts pkts' s c c',
  carries c pkts s -> carries c' pkts' s -> ci_end c' = ci_end c -> Forall2 alike_packet pkts pkts' ->
  conn_diary out c' = conn_diary out c.
Proof.
  intros E out pkts pkts' s c c' Hc Hc' He Hal. unfold conn_diary.
  assert (Hs : bytes_ok s = true) by (destruct Hc as (_ & _ & [[H _]|[H _]]); exact H).
  rewrite (streams_alike out pkts pkts' (S (length (concat (ci_chunks c)))) (S (length (concat (ci_chunks c')))) 0 c c' s Hal Hc Hc' He (le_n _) (le_n _) Hs).
  reflexivity.
Qed.
Definition login1 : bytes := [1; 0; 0; 11; 0; 61; 0; 9; 0; 1; 71; 15; 0; 1; 0; 1; 7; 0; 0; 0; 1; 1; 7; 12; 0; 97; 110; 110; 97; 0; 115; 101; 99; 114; 101; 116; 0; 24; 0; 2; 0; 1; 7; 0; 0; 0; 2; 2; 16; 21; 0; 85; 145; 2; 16; 111; 28; 5; 158; 122; 181; 60; 53; 1; 208; 135; 44; 1; 0; 0; 0; 0; 97; 123].
Definition login2 : bytes := [1; 0; 0; 11; 0; 63; 0; 9; 0; 1; 208; 17; 0; 1; 0; 1; 7; 0; 0; 0; 1; 1; 7; 14; 0; 98; 111; 114; 105; 115; 0; 104; 117; 110; 116; 101; 114; 50; 0; 24; 0; 2; 0; 1; 7; 0; 0; 0; 2; 2; 16; 21; 0; 85; 145; 2; 16; 111; 28; 5; 158; 122; 181; 60; 53; 1; 208; 135; 44; 1; 0; 0; 0; 0; 254; 198].
(** anna/secret and boris/hunter2, each with the same position. *)
Example C136_example : forall E : go_env, good login1 /\ good login2 /\ alike_packet login1 login2 /\ login1 <> login2.
Proof.
  intros E. assert (G1 : good login1) by good_packet. assert (G2 : good login2) by good_packet.
  split; [exact G1|]. split; [exact G2|]. split; [|discriminate]. right.
  assert (exists p l, decodes_to login1 p /\ pSFRD p = Some (FSds l) /\ pPT p = 1 /\ pPID p = 9 /\
    exists p' l', decodes_to login2 p' /\ pSFRD p' = Some (FSds l') /\ pPT p' = 1 /\ pPID p' = 9 /\
    Forall2 alike_sdr l l') as (p & l & Hd & Hl & Hpt & Hid & p' & l' & Hd' & Hl' & Hpt' & Hid' & Hal).
  { do 2 eexists. split; [apply decodes_to_nil; [exact G1|]; vm_compute; reflexivity|].
    split; [reflexivity|]. split; [reflexivity|]. split; [reflexivity|].
    do 2 eexists. split; [apply decodes_to_nil; [exact G2|]; vm_compute; reflexivity|].
    split; [reflexivity|]. split; [reflexivity|]. split; [reflexivity|].
    constructor; [|constructor; [|constructor]];
      (split; [reflexivity|]; split; [reflexivity|]; split; [reflexivity|]; constructor; [first [exact I|reflexivity]|constructor]). }
  exists p, p', l, l'. split; [exact Hd|]. split; [exact Hd'|].
  split; [congruence|]. split; [exact Hpt|]. split; [exact Hpt'|]. split; [exact Hl|]. split; [exact Hl'|exact Hal].
Qed.
Print Assumptions C134_records_in_log_refuted.
Print Assumptions C134_exported_exactly.
Print Assumptions C135_same_actions.
Print Assumptions C135_levels.
Print Assumptions C135_nothing_lost_silently_refuted.
Print Assumptions C135_noted_exactly.
Print Assumptions C135_error_level.
Print Assumptions C135_services_exactly.
Print Assumptions C135_info_exactly.
Print Assumptions C136_logins_not_written.
