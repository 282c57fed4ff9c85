(** * PolicyFacts: header options and unused fields do not matter. *)
From Coq Require Import Lia ZifyBool ZifyN ZifyNat.
From Verif Require Import GoBase Crc Float64 SubRecords Records Package Storage Server
  Spec_Bits Spec_Wf Spec_Rec Spec_Pkg Spec_Server Spec_Policy
  BaseFacts CrcFacts PkgFacts PkgFacts2 ServerFacts2 ServerFacts3 GlueServer GlueServer2.

Section PolicyFacts.
Context {E : go_env}.

(** What a packet amounts to. *)
Definition verdict_of (pid pt : N) (body : bytes) : presult :=
  let refuse code := match create_pt_response pid code 0 [] with
                     | Ok resp => PActs [AWrite resp] | Err => PActs [] | Panic => PCrash | Fuel => PFuel end in
  if negb ((pt =? 1) || (pt =? 0)) then refuse 133
  else match frame_decode pt body with
       | Ok f => if pt =? 1 then
                   match f with
                   | FSds l => match recs_loop pid (app_init pid) l with
                               | Some st => app_reply pid 0 st | None => PActs [] end
                   | _ => PCrash
                   end
                 else PActs []
       | Err => refuse 129 | Panic => PCrash | Fuel => PFuel
       end.

Lemma low_high v : v < 2 ^ 16 -> low v + 256 * high v = v /\ low v < 256 /\ high v < 256.
Proof.
  intros H. change (2 ^ 16) with 65536 in H. unfold low, high. pose proof (N.div_mod v 256 ltac:(lia)). pose proof (N.mod_lt v 256 ltac:(lia)).
  assert (v / 256 < 256) by (apply N.div_lt_upper_bound; lia). lia.
Qed.
Section Packet.
Variables (o : options) (pid pt : N) (body : bytes).
Hypotheses (Ho : options_ok o) (Hpid : pid < 2 ^ 16) (Hpt : pt < 256) (Hbody : bytes_ok body = true) (Hlen : 0 < blen body < 65520).
Let H := header o pid pt body ++ [crc8 (header o pid pt body)].

Lemma sealed_hdr_ok : bytes_ok (header o pid pt body) = true.
Proof.
  destruct Ho as (H1 & H2 & H3 & H4 & H5). destruct (low_high pid Hpid) as (_ & P1 & P2).
  destruct (low_high (blen body)) as (_ & L1 & L2); [change (2 ^ 16) with 65536; lia|].
  unfold header. rewrite bytes_ok_app, H4, andb_true_r. unfold bytes_ok. cbn [forallb]. unfold byte_ok.
  assert (blen (opRoute o) <= 5) by (unfold blen; destruct (N.testbit (opFlags o) 5); lia). lia.
Qed.
Lemma sealed_std : std_packet H body [low (crc16 body); high (crc16 body)] /\ byte_at H 9 = pt /\ word_at H 7 = pid /\
  byte_at H (hcs_pos H) = crc8 (firstn (hcs_pos H) H) /\ byte_at H 0 = 1 /\ 10 < blen H <= 16.
Proof.
  destruct Ho as (H1 & H2 & H3 & H4 & H5). destruct (low_high pid Hpid) as (P0 & P1 & P2).
  destruct (low_high (blen body)) as (L0 & L1 & L2); [change (2 ^ 16) with 65536; lia|].
  assert (Hr : routed H = N.testbit (opFlags o) 5) by reflexivity.
  assert (HL : length (header o pid pt body) = hcs_pos H).
  { unfold hcs_pos. rewrite Hr. unfold header. rewrite app_length, H5. destruct (N.testbit _ 5); reflexivity. }
  assert (HLt : length H = S (hcs_pos H)) by (unfold H at 1; rewrite app_length, HL; cbn [length]; lia).
  assert (HB : blen (header o pid pt body) = 10 + blen (opRoute o)) by (unfold header; rewrite blen_app; reflexivity).
  split; [split; [|split]|].
  - exact HLt.
  - assert (blen H = 11 + blen (opRoute o)) as -> by (unfold H; rewrite blen_app, HB; change (blen [crc8 (header o pid pt body)]) with 1; lia). reflexivity.
  - unfold decl_fdl, word_at, H, header. cbn [app nth]. exact L0.
  - split; [reflexivity|]. split; [unfold word_at, H, header; cbn [app nth]; exact P0|]. split; [|split; [reflexivity|]].
    + unfold byte_at. unfold H at 2 4. rewrite <- HL. rewrite app_nth2 by lia. rewrite Nat.sub_diag. cbn [nth].
      rewrite firstn_app, Nat.sub_diag, firstn_all. cbn [firstn]. rewrite app_nil_r. reflexivity.
    + unfold blen. rewrite HLt. unfold hcs_pos. destruct (routed H); lia.
Qed.
Lemma sealed_eq : sealed o pid pt body = H ++ body ++ [low (crc16 body); high (crc16 body)].
Proof. unfold sealed, H. rewrite <- app_assoc. reflexivity. Qed.
Lemma sealed_ok : bytes_ok (sealed o pid pt body) = true.
Proof.
  destruct (low_high (crc16 body) (crc16_lt body Hbody)) as (_ & C1 & C2).
  unfold sealed. rewrite !bytes_ok_app, sealed_hdr_ok, Hbody. pose proof (crc8_lt _ sealed_hdr_ok) as C. unfold bytes_ok. cbn [forallb]. unfold byte_ok. lia.
Qed.
Lemma sealed_process spare : process (mkSlice (sealed o pid pt body) spare) = verdict_of pid pt body.
Proof.
  destruct sealed_std as (Hstd & H9 & H7 & Hcs & H0 & HLb). pose proof sealed_ok as Hok. revert Hok. rewrite sealed_eq. intros Hok.
  set (rest := [low (crc16 body); high (crc16 body)]) in *.
  assert (Hw : word_at rest 0 = crc16 body) by (unfold word_at, rest; cbn [nth]; apply low_high, crc16_lt; exact Hbody).
  pose proof (std_len _ _ _ Hstd) as HL. pose proof (std_hl_u8 _ _ _ Hstd) as Hu.
  assert (Hp : length H = frame_pos H) by apply Hstd. assert (Hhl : decl_hl H = blen H) by apply Hstd.
  assert (Hfdl : decl_fdl H = blen body) by apply Hstd. clearbody H.
  assert (Hr2 : length rest = 2%nat) by reflexivity.
  unfold process. rewrite decode_long.
  2: exact Hok.
  2: { rewrite hcs_pos_app by lia. rewrite !app_length. unfold frame_pos in Hp. lia. }
  unfold decode_fun. cbv zeta.
  assert (Hlong : (frame_pos (H ++ body ++ rest) + N.to_nat (decl_fdl (H ++ body ++ rest)) + 2 = length (H ++ body ++ rest))%nat).
  { rewrite frame_pos_app, decl_fdl_app by lia. rewrite <- Hp, Hfdl. unfold blen. rewrite !app_length. lia. }
  rewrite frame_read_of by lia.
  rewrite decl_hl_app by lia. rewrite Hu.
  assert (area ((H ++ body ++ rest) ++ spare) 0 (blen H - 1) = firstn (hcs_pos H) H) as ->.
  { rewrite <- app_assoc. rewrite area_app by lia. rewrite area_0. f_equal. unfold frame_pos in Hp. unfold blen. lia. }
  rewrite (proj2 (N.ltb_ge _ _)) by (rewrite !blen_app; unfold blen; lia).
  rewrite hcs_pos_app by lia. rewrite byte_at_app by (unfold frame_pos in Hp; lia). rewrite (proj2 (N.eqb_eq _ _) Hcs). cbn [negb].
  rewrite (proj2 (Nat.leb_gt _ _)) by lia.
  assert (G9 : byte_at (H ++ body ++ rest) 9 = pt) by (rewrite byte_at_app by lia; exact H9). rewrite G9.
  assert (G7 : word_at (H ++ body ++ rest) 7 = pid) by (rewrite word_at_app by lia; exact H7).
  assert (Q1 : pPID (hcs_of pkg0 (H ++ body ++ rest)) = pid) by exact G7.
  assert (Q2 : pPT (hcs_of pkg0 (H ++ body ++ rest)) = pt) by exact G9.
  unfold verdict_of. cbv zeta. destruct (negb ((pt =? 1) || (pt =? 0))) eqn:Hk; [rewrite Q1; reflexivity|].
  assert (frame_of (H ++ body ++ rest) = body) as ->.
  { unfold frame_of. rewrite frame_pos_app, decl_fdl_app by lia. rewrite <- Hp, Hfdl, to_nat_blen. rewrite skipn_exact, firstn_exact by reflexivity. reflexivity. }
  pose proof (frame_decode_returns pt body) as Hret. destruct (frame_decode pt body) as [f| | |]; try (destruct Hret; fail).
  2: { cbn [set_SFRD pPID]. rewrite Q1. reflexivity. }
  rewrite (proj2 (Nat.leb_gt _ _)) by lia. rewrite decl_fdl_app by lia. rewrite Hhl, Hfdl.
  rewrite (proj2 (N.leb_gt _ _)) by (change (2 ^ 16) with 65536; lia).
  rewrite (proj2 (N.ltb_ge _ _)) by (rewrite !blen_app; unfold blen; lia). cbn [orb].
  assert (sfrcs_of (H ++ body ++ rest) = crc16 body) as ->.
  { unfold sfrcs_of. rewrite frame_pos_app, decl_fdl_app by lia. rewrite <- Hp, Hfdl, to_nat_blen. rewrite <- Hw.
    unfold word_at. rewrite app_assoc. rewrite <- app_length. rewrite !app_nth2 by lia. repeat f_equal; lia. }
  rewrite <- !app_assoc, area_split, N.eqb_refl.
  assert (Q3 : pPID (final_of pkg0 (H ++ body ++ rest) f) = pid) by exact G7.
  assert (Q4 : pPT (final_of pkg0 (H ++ body ++ rest) f) = pt) by exact G9.
  assert (Q5 : pSFRD (final_of pkg0 (H ++ body ++ rest) f) = Some f) by reflexivity.
  rewrite Q3, Q4, Q5. reflexivity.
Qed.
End Packet.

Section Good.
Variables (o : options) (pid pt : N) (body : bytes).
Hypotheses (Ho : options_ok o) (Hpid : pid < 2 ^ 16) (Hpt : pt < 256) (Hbody : bytes_ok body = true) (Hlen : 0 < blen body < 65520).
Lemma sealed_good : good (sealed o pid pt body).
Proof.
  destruct (sealed_std o pid pt body Ho Hpid Hpt Hlen) as (Hstd & H9 & H7 & Hcs & H0 & HLb).
  pose proof (sealed_ok o pid pt body Ho Hpid Hpt Hbody Hlen) as Hok. revert Hok. rewrite sealed_eq.
  set (H := header o pid pt body ++ [crc8 (header o pid pt body)]) in *. set (rest := [low (crc16 body); high (crc16 body)]) in *. intros Hok.
  assert (Hp : length H = frame_pos H) by apply Hstd. assert (Hhl : decl_hl H = blen H) by apply Hstd.
  assert (Hfdl : decl_fdl H = blen body) by apply Hstd. clearbody H. assert (HL : (10 < length H)%nat) by (unfold blen in HLb; lia).
  assert (Hr : blen rest = 2) by reflexivity.
  split.
  - split; [exact Hok|]. split; [rewrite byte_at_app by lia; exact H0|].
    assert (Hw : wire_len (H ++ body ++ rest) = blen H + blen body + 2).
    { unfold wire_len. rewrite decl_hl_app, decl_fdl_app by lia. rewrite Hhl, Hfdl. rewrite (proj2 (N.ltb_lt _ _)) by lia. lia. }
    rewrite Hw, !blen_app, Hr. split; lia.
  - intros spare. apply no_panic; [exact Hok| |].
    + rewrite decl_hl_app by lia. unfold std_hl. rewrite frame_pos_app by lia. rewrite Hhl, <- Hp. unfold blen. lia.
    + rewrite decl_hl_app, decl_fdl_app by lia. rewrite Hhl, Hfdl. change (2 ^ 16) with 65536. lia.
Qed.
End Good.

(** ** What is taken from the records *)
Fixpoint ess_loop (pid : N) (ids : bytes) (st : app_st) (l : list essence) : option app_st :=
  match l with
  | [] => Some st
  | XConfirmation :: l' => None
  | XCredentials :: l' =>
      ess_loop pid ids (mkApp (ap_exp st) (ap_save st) (ap_resps st) (ap_service st) (rescode_pkg pid)) l'
  | XIMEI v :: l' => ess_loop pid ids (set_exp (nr_set_imei v (ap_exp st)) st) l'
  | XPosition t la lo sp :: l' =>
      ess_loop pid ids (mkApp (nr_add_loc (unix_of t) {| lsLat := la; lsLng := lo; lsSpeed := sp; lsNavDt := rfc3339 t |} (ap_exp st))
                              true (ap_resps st) (ap_service st) (ap_rescode st)) l'
  | XReading n v :: l' => ess_loop pid ids (set_exp (nr_add_an [{| anNumber := n; anValue := v |}] (ap_exp st)) st) l'
  | XNumber c v :: l' =>
      let '(ids', n) := cntr_step {| CounterNumber := c; CounterValue := v |} ids (ap_exp st) in
      ess_loop pid ids' (set_exp n st) l'
  | XLevel n m e u v :: l' =>
      ess_loop pid ids (set_exp (nr_add_liq (liq_of {| LLSEF := e; LLSVU := u; RDF := []; LLSN := n; MADDR := m; LLSD := v |}) (ap_exp st)) st) l'
  end.
Lemma set_exp_same st : set_exp (ap_exp st) st = st.
Proof. destruct st. reflexivity. Qed.
Lemma add_an_nil n : nr_add_an [] n = n.
Proof. destruct n. unfold nr_add_an. cbn. rewrite app_nil_r. reflexivity. Qed.
Lemma ess_readings pid l : forall ids st r,
  ess_loop pid ids st (map (fun x => XReading (fst x) (snd x)) l ++ r) =
  ess_loop pid ids (set_exp (nr_add_an (map (fun x => {| anNumber := fst x; anValue := snd x |}) l) (ap_exp st)) st) r.
Proof.
  induction l as [|x l IH]; intros ids st r; cbn [map app].
  - rewrite add_an_nil, set_exp_same. reflexivity.
  - cbn [ess_loop]. rewrite IH. f_equal. destruct st as [[] ? ? ? ?]. unfold set_exp, nr_add_an. cbn. rewrite <- app_assoc. reflexivity.
Qed.
Lemma ad_readings e : an_of_ad e = map (fun x => {| anNumber := fst x; anValue := snd x |}) (analogue (SRAd e)).
Proof.
  unfold an_of_ad, analogue, an_opt, oct_list. destruct (ASFE e) as [f1 f2 f3 f4 f5 f6 f7 f8], (ANS e) as [v1 v2 v3 v4 v5 v6 v7 v8].
  cbn [o1 o2 o3 o4 o5 o6 o7 o8 combine filter fst]. 
  destruct (is1 f1), (is1 f2), (is1 f3), (is1 f4), (is1 f5), (is1 f6), (is1 f7), (is1 f8); reflexivity.
Qed.
Lemma subs_essence pid l : forall ids st,
  subs_loop pid ids st l = ess_loop pid ids st (flat_map (fun d => essence_of (SRD d)) l).
Proof.
  induction l as [|rd l IH]; intros ids st; [reflexivity|]. cbn [subs_loop flat_map].
  destruct (SRD rd) as [] eqn:Hd; cbn [essence_of app]; try apply IH; try reflexivity;
    try (cbn [ess_loop]; rewrite IH; reflexivity).
  - rewrite ess_readings, IH. rewrite ad_readings. reflexivity.
  - destruct ((CounterNumber e =? 110) || (CounterNumber e =? 111)) eqn:Hc.
    + cbn [app ess_loop]. destruct e as [c v]. cbn [CounterNumber CounterValue]. destruct (cntr_step _ _ _). apply IH.
    + cbn [app]. unfold cntr_step. apply orb_false_iff in Hc as [-> ->]. rewrite set_exp_same. apply IH.
Qed.
Lemma recs_essence pid l1 : forall l2 st, map record_essence l1 = map record_essence l2 -> recs_loop pid st l1 = recs_loop pid st l2.
Proof.
  induction l1 as [|r1 l1 IH]; intros [|r2 l2] st Heq; cbn [map] in Heq; try discriminate; [reflexivity|].
  assert (Hr : record_essence r1 = record_essence r2) by congruence. assert (Hl : map record_essence l1 = map record_essence l2) by congruence.
  unfold record_essence in Hr. pose proof (f_equal (fun x => fst (fst (fst x))) Hr) as R1. pose proof (f_equal (fun x => snd (fst (fst x))) Hr) as R2.
  pose proof (f_equal (fun x => snd (fst x)) Hr) as R3. pose proof (f_equal snd Hr) as R4. cbn [fst snd] in *.
  cbn [recs_loop]. rewrite !subs_essence, R1, R2, R3, R4. destruct (ess_loop _ _ _ _); [|reflexivity]. apply IH. exact Hl.
Qed.
Lemma essence_process b1 b2 p1 p2 l1 l2 s1 s2 : decodes_to b1 p1 -> decodes_to b2 p2 ->
  pSFRD p1 = Some (FSds l1) -> pSFRD p2 = Some (FSds l2) -> pPT p1 = pPT p2 -> pPID p1 = pPID p2 ->
  map record_essence l1 = map record_essence l2 ->
  process (mkSlice b1 s1) = process (mkSlice b2 s2).
Proof.
  intros D1 D2 F1 F2 Ht Hi He. unfold process. rewrite D1, D2, F1, F2, Ht, Hi. rewrite (recs_essence _ _ _ _ He). reflexivity.
Qed.
End PolicyFacts.

Section Replay.
Context {E : go_env}.
Lemma stream_process pkts : forall c s, Forall good pkts -> bytes_ok s = true ->
  concat (ci_chunks c) = concat pkts ++ s ->
  exists actss, Forall2 (fun b acts => forall spare, process (mkSlice b spare) = PActs acts) pkts actss /\
    fst (conn_exec c) = concat actss ++ fst (conn_exec (mkIn [s] (ci_end c))).
Proof.
  induction pkts as [|b pkts IH]; intros c s Hg Hs Hc.
  - exists []. split; [constructor|]. cbn [concat app] in *.
    rewrite (conn_exec_stream c (mkIn [s] (ci_end c))); [destruct (conn_exec _); reflexivity| |reflexivity].
    cbn [ci_chunks concat]. rewrite app_nil_r. exact Hc.
  - inversion Hg as [|? ? Hb Hg']; subst. cbn [concat] in Hc. rewrite <- app_assoc in Hc.
    destruct (conn_step_framed c b _ (proj1 Hb) Hc) as (rest & spare & Hr & Hst).
    destruct (process_spec b spare (proj1 Hb) (proj2 Hb)) as (acts & Hp & _). rewrite Hp in Hst.
    destruct (IH (mkIn rest (ci_end c)) s Hg' Hs Hr) as (actss & Ha & He).
    exists (acts :: actss). split.
    { constructor; [|exact Ha]. intros sp. rewrite (process_spare b sp Hb), <- (process_spare b spare Hb). exact Hp. }
    rewrite conn_exec_step.
    + rewrite Hst. destruct (conn_exec (mkIn rest (ci_end c))) as [l f]. cbn [fst] in *. rewrite He. cbn [ci_end concat]. rewrite app_assoc. reflexivity.
    + rewrite Hc. rewrite bytes_ok_app. rewrite bytes_ok_app.
      destruct Hb as [(Hb & _) _]. rewrite Hb, Hs.
      assert (bytes_ok (concat pkts) = true) as ->; [|reflexivity].
      clear - Hg'. induction Hg' as [|x l [[Hx _] _] _ IH]; [reflexivity|]. cbn [concat]. rewrite bytes_ok_app, Hx, IH. reflexivity.
Qed.
Lemma carries_process c pkts s : carries c pkts s ->
  exists actss, Forall2 (fun b acts => forall spare, process (mkSlice b spare) = PActs acts) pkts actss /\
    fst (conn_exec c) = concat actss.
Proof.
  intros (Hc & Hg & Hs). destruct (stream_process pkts c s Hg (quiet_ok s Hs) Hc) as (actss & Ha & He).
  exists actss. split; [exact Ha|]. rewrite He, (proj1 (tail_quiet s (ci_end c) Hs)), app_nil_r. reflexivity.
Qed.
Lemma replay c b n s acts : carries c (repeat b n) s -> process (mkSlice b []) = PActs acts ->
  fst (conn_exec c) = concat (repeat acts n).
Proof.
  intros Hc Hp. destruct (carries_process c _ s Hc) as (actss & Ha & He). rewrite He. f_equal. clear - Ha Hp.
  revert actss Ha. induction n as [|n IH]; intros actss Ha; cbn [repeat] in *; inversion Ha as [|? a ? ? H1 H2]; subst; [reflexivity|].
  rewrite (IH _ H2). f_equal. specialize (H1 []). rewrite Hp in H1. assert (forall x y, PActs x = PActs y -> x = y) as Hinj by congruence.
  symmetry. apply Hinj. exact H1.
Qed.
Lemma ack_number w pid code svc nums : is_ack w pid code svc nums -> word_at w 7 = (pid + 1) mod 2 ^ 16.
Proof.
  intros (Hf & _ & p & r & Hd & _ & Hpid & _). destruct (process_spec w [] Hf) as (acts & _ & p' & c & e & Hd' & Hp' & _).
  { intros spare. rewrite Hd. discriminate. }
  rewrite <- Hp'. specialize (Hd []). specialize (Hd' []). rewrite Hd in Hd'. injection Hd' as <- _ _. exact Hpid.
Qed.
Lemma reply_number b spare acts w : good b -> process (mkSlice b spare) = PActs acts -> In (AWrite w) acts ->
  word_at w 7 = (word_at b 7 + 1) mod 2 ^ 16.
Proof.
  intros Hg Hp Hin. destruct (process_spec b spare (proj1 Hg) (proj2 Hg)) as (acts' & Hp' & p & code & err & Hd & Hpid & Herr & Hok).
  rewrite Hp in Hp'. assert (forall x y, PActs x = PActs y -> x = y) as Hinj by congruence. apply Hinj in Hp'. subst acts'.
  rewrite <- Hpid. assert (Hlt : pPID p < 2 ^ 16).
  { rewrite Hpid. apply word_at_bound. apply Hg. }
  destruct err.
  - destruct (Herr eq_refl) as (_ & ack & -> & Hi). destruct Hin as [H|[]]. injection H as <-. exact (ack_number _ _ _ _ _ Hi).
  - destruct (Hok eq_refl) as (_ & [(_ & -> & _)|(_ & l & _ & Ha)]); [destruct Hin|]. unfold app_actions in Ha.
    destruct (confirms l); [subst acts; destruct Hin|]. destruct Ha as (rec & ack & Hacts & _ & _ & _ & _ & _ & _ & _ & _ & _ & svc & Hi & _).
    assert (w = ack \/ w = result_packet (pPID p)) as [->| ->].
    { revert Hacts Hin. clear. generalize (result_packet (pPID p)). intros rp -> Hin.
      destruct (positions l), (credentials l); cbn [app In] in Hin;
        repeat (destruct Hin as [Hin|Hin]; [try discriminate Hin; injection Hin as <-; tauto|]); destruct Hin. }
    + exact (ack_number _ _ _ _ _ Hi).
    + destruct (result_body (pPID p) Hlt) as (_ & s0 & _ & _ & Hw). exact Hw.
Qed.
End Replay.
