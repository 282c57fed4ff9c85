(** * GlueGen: packets encoded by this library, received by this server. *)
From Verif Require Import GoBase Crc Float64 SubRecords Records Package Storage Server PacketGen
  Spec_Bits Spec_Wf Spec_Rec Spec_Pkg Spec_Server BaseFacts SubFacts RecFacts DecFacts
  PkgFacts PkgFacts2 PkgFacts3 ServerFacts ServerFacts2 ServerFacts3 ServerFacts4 ServerFacts5 GlueServer GlueServer2.
From Coq Require Import Lia ZifyBool ZifyN ZifyNat.

Section GlueGen.
Context {E : go_env}.

Lemma encoded_good p : wf_pkg p -> pPRV p = 1 ->
  exists p1 b p' hdr body, pkg_encode p = (p1, Ok b) /\ good b /\ word_at b 7 = pPID p /\
    decodes_to b p' /\ filled_pkg p p' hdr body.
Proof.
  intros Hwf Hv. pose proof Hwf as Hwf0.
  destruct Hwf0 as (H1 & H2 & H3 & H4 & H5 & H6 & H7 & H8 & H9 & H10 & H11 & f & Hf & Hwff & Hpt & body0 & Hb0 & Hne & Hlen).
  destruct (pkg_roundtrip p Hwf) as (p1 & hdr & body & b & He & Hb & Hlay & Hok & Hl & Hd).
  rewrite Hf, Hb0 in Hb. injection Hb as <-.
  pose proof He as He'. apply pkg_encode_ok in He'. destruct He' as (flags & body' & Hfl & Hb' & -> & Heq).
  rewrite Hf, Hb0 in Hb'. injection Hb' as <-.
  destruct (pkg_flags _ _ _ _ _ H3 H4 H5 H6 H7) as (v & Hv1 & Hv2 & _ & Hv3 & _). rewrite Hfl in Hv1. injection Hv1 as <-.
  assert (blen body0 < 2 ^ 16) as Hlb by (destruct (is1 (pRTE p)); lia).
  assert (u16 (blen body0) = blen body0) as Hu by (apply N.mod_small; exact Hlb).
  assert (eff_hl p = if is1 (pRTE p) then 16 else 11) as Hhl.
  { unfold eff_hl. destruct (N.eqb_spec (pHL p) 0); [reflexivity|]. destruct H10; [contradiction|assumption]. }
  assert (is1 (pRTE p) = true -> pPRA p < 2 ^ 16 /\ pRCA p < 2 ^ 16) as Hr.
  { intros Hr. rewrite Hr in H11. split; apply H11. }
  rewrite Hu in Heq.
  assert (0 < blen body0) as Hpos. { unfold blen. destruct body0; [congruence|cbn [length]; lia]. }
  rewrite (proj2 (N.ltb_lt 0 _) Hpos) in Heq.
  set (eh := enc_hdr p flags (eff_hl p) (blen body0)) in *.
  destruct (enc_hdr_fields p flags (eff_hl p) (blen body0) ([crc8 eh] ++ body0 ++ le_enc 2 (crc16 body0)) Hv2 Hv3 Hlb H9 Hr)
    as (F1 & F2 & F3 & _ & _ & F4 & _ & F5 & F6 & _).
  fold eh in F1, F2, F3, F4, F5, F6. rewrite <- Heq in F1, F3, F4, F5, F6.
  assert (blen b = eff_hl p + blen body0 + 2) as Hlenb.
  { rewrite Heq. unfold blen. rewrite !app_length, F2, length_le_enc. unfold blen in *. cbn [length]. rewrite Hhl. destruct (is1 (pRTE p)); lia. }
  assert (framed b) as Hfr.
  { split; [exact Hok|]. split; [rewrite F3; exact Hv|].
    assert (wire_len b = eff_hl p + blen body0 + 2) as Hw.
    { unfold wire_len, decl_hl, decl_fdl. rewrite F4, F5. rewrite (proj2 (N.ltb_lt 0 _) Hpos). lia. }
    split; [rewrite Hw; exact Hlenb|]. rewrite Hw, Hhl. destruct (is1 (pRTE p)); lia. }
  assert (good b) as Hg.
  { split; [exact Hfr|]. apply std_survives; [exact Hfr| |]; unfold decl_hl, decl_fdl; rewrite F4, ?F5, Hhl; destruct (is1 (pRTE p)); lia. }
  exists (set_FDL (u16 (blen body0)) (set_HL (eff_hl p) p)), b.
  destruct (Hd [] [] eq_refl) as (p' & Hd0 & Hfill). rewrite app_nil_r in Hd0.
  exists p', hdr, body0. split; [exact He|]. split; [exact Hg|]. split; [exact F6|]. split; [|exact Hfill].
  intros spare. rewrite (framed_spare b spare [] (proj1 Hg) (proj2 Hg)). exact Hd0.
Qed.

(** the contents of an encoded package as the server sees them *)
Definition quant_positions (l : list sdr) : list pos_data := map quant_pos (positions l).

Lemma filled_rds_subs l l' : Forall2 filled_rd l l' -> map SRD l' = map quant_sr (map SRD l).
Proof. induction 1 as [|a b l l' (_ & H & _) _ IH]; [reflexivity|]. cbn [map]. rewrite H, IH. reflexivity. Qed.
Lemma filled_subrecords l l' : Forall2 filled_sdr l l' -> subrecords l' = map quant_sr (subrecords l).
Proof.
  unfold subrecords. induction 1 as [|a b l l' H _ IH]; [reflexivity|]. cbn [flat_map]. rewrite IH, map_app.
  f_equal. apply filled_rds_subs. apply H.
Qed.
Lemma flat_map_quant {B} (g h : srdata -> list B) ds : (forall d, g (quant_sr d) = h d) ->
  flat_map g (map quant_sr ds) = flat_map h ds.
Proof. intros H. induction ds as [|d ds IH]; [reflexivity|]. cbn. rewrite H, IH. reflexivity. Qed.
Lemma existsb_quant g ds : (forall d, g (quant_sr d) = g d) -> existsb g (map quant_sr ds) = existsb g ds.
Proof. intros H. induction ds as [|d ds IH]; [reflexivity|]. cbn. rewrite H, IH. reflexivity. Qed.
Lemma filled_positions l l' : Forall2 filled_sdr l l' -> positions l' = map quant_pos (positions l).
Proof.
  intros H. unfold positions. rewrite (filled_subrecords _ _ H).
  rewrite (flat_map_quant _ (fun d => map quant_pos match d with SRPos e => [e] | _ => [] end)) by (intros []; reflexivity).
  induction (subrecords l) as [|d ds IH]; [reflexivity|]. cbn [flat_map]. rewrite map_app, IH. reflexivity.
Qed.
Lemma filled_confirms l l' : Forall2 filled_sdr l l' -> confirms l' = confirms l.
Proof. intros H. unfold confirms. rewrite (filled_subrecords _ _ H). apply existsb_quant. intros []; reflexivity. Qed.
Lemma filled_credentials l l' : Forall2 filled_sdr l l' -> credentials l' = credentials l.
Proof. intros H. unfold credentials. rewrite (filled_subrecords _ _ H). apply existsb_quant. intros []; reflexivity. Qed.
Lemma filled_liquids l l' : Forall2 filled_sdr l l' -> liquids l' = liquids l.
Proof. intros H. unfold liquids. rewrite (filled_subrecords _ _ H). apply flat_map_quant. intros []; reflexivity. Qed.
Lemma filled_analogue l l' : Forall2 filled_sdr l l' -> flat_map analogue (subrecords l') = flat_map analogue (subrecords l).
Proof. intros H. rewrite (filled_subrecords _ _ H). apply flat_map_quant. intros []; reflexivity. Qed.
Lemma filled_imeis l l' : Forall2 filled_sdr l l' -> imeis l' = imeis l.
Proof. intros H. unfold imeis. rewrite (filled_subrecords _ _ H). apply flat_map_quant. intros []; reflexivity. Qed.
Lemma filled_numbered l l' : Forall2 filled_sdr l l' -> numbered l' = numbered l.
Proof. intros H. unfold numbered. rewrite (filled_subrecords _ _ H). apply existsb_quant. intros []; reflexivity. Qed.
Lemma filled_map {B} (g : sdr -> B) l l' : (forall s s', filled_sdr s s' -> g s' = g s) -> Forall2 filled_sdr l l' -> map g l' = map g l.
Proof. intros Hg. induction 1 as [|a b l l' H _ IH]; [reflexivity|]. cbn [map]. rewrite (Hg _ _ H), IH. reflexivity. Qed.
Lemma filled_RN l l' : Forall2 filled_sdr l l' -> map RN l' = map RN l.
Proof. apply filled_map. intros s s' H. apply H. Qed.
Lemma filled_OID l l' : Forall2 filled_sdr l l' -> map OID l' = map OID l.
Proof. apply filled_map. intros s s' (H1 & H2 & H3 & H4 & H5 & H6 & H7 & H8 & H9 & _). exact H9. Qed.

(** End to end: what the receiver does with an encoded application-data package. *)
Lemma encoded_received p l : wf_pkg p -> pPRV p = 1 -> pSFRD p = Some (FSds l) -> confirms l = false ->
  exists p1 b, pkg_encode p = (p1, Ok b) /\ good b /\
  forall spare, exists rec ack svc,
    process (mkSlice b spare) = PActs ((match positions l with [] => [] | _ :: _ => [ASave rec] end)
        ++ [AWrite ack] ++ (if credentials l then [AWrite (result_packet (pPID p))] else [])) /\
    Forall2 loc_stored (map quant_pos (positions l)) (nrLocs rec) /\
    nrCount rec = N.of_nat (length (positions l)) /\
    map (fun s => (anNumber s, anValue s)) (nrAn rec) = flat_map analogue (subrecords l) /\
    Forall2 liquid_stored (liquids l) (nrLiq rec) /\
    nrClientID rec = last (map OID l) 0 /\ nrIMEI rec = last (imeis l) [] /\
    nrNavTs rec = last (map (fun e => unix_of (time_decode (time_encode (NavigationTime e)))) (positions l)) 0%Z /\
    (numbered l = false -> nrPacketID rec = pPID p) /\
    is_ack ack (pPID p) 0 svc (map RN l).
Proof.
  intros Hwf Hv Hl Hc. destruct (encoded_good p Hwf Hv) as (p1 & b & p' & hdr & body & He & Hg & Hpid & Hd & Hfill).
  exists p1, b. split; [exact He|]. split; [exact Hg|]. intros spare.
  destruct Hfill as (_ & _ & _ & _ & _ & _ & _ & _ & _ & _ & Hid & _ & _ & _ & _ & _ & _ & f & f' & Hf & Hf' & Hff).
  rewrite Hl in Hf. injection Hf as <-. destruct f' as [l'|r]; [|contradiction]. cbn [filled_frame] in Hff.
  destruct (process_app b spare p' l' Hg Hd Hf') as (acts & Hp & Hpid' & Ha).
  unfold app_actions in Ha. rewrite (filled_confirms _ _ Hff), Hc in Ha.
  destruct Ha as (rec & ack & Hacts & G1 & G2 & G3 & G4 & G5 & _ & G6 & G7 & G8 & svc & G9 & _).
  exists rec, ack, svc. rewrite (filled_positions _ _ Hff), (filled_credentials _ _ Hff) in Hacts. rewrite Hid in Hacts, G8, G9.
  rewrite (filled_positions _ _ Hff) in G1, G2, G7. rewrite (filled_analogue _ _ Hff) in G3.
  rewrite (filled_liquids _ _ Hff) in G4. rewrite (filled_imeis _ _ Hff) in G6. rewrite (filled_numbered _ _ Hff) in G8.
  rewrite (filled_RN _ _ Hff) in G9.
  split. { rewrite Hp, Hacts. destruct (positions l); reflexivity. }
  split; [exact G1|]. split; [rewrite G2, map_length; reflexivity|]. split; [exact G3|]. split; [exact G4|].
  split. { rewrite G5, (last_map OID), (filled_OID _ _ Hff). reflexivity. }
  split; [exact G6|]. split. { rewrite G7, map_map. reflexivity. } split; [exact G8|exact G9].
Qed.
(** ** packet-gen *)
Definition gen_sdr (g : gen_params) : sdr :=
  match pSFRD (gen_package g) with Some (FSds (s :: _)) => s | _ => {| RL := 0; RN := 0; SSOD := []; RSOD := []; GRP := []; RPP := [];
       TMFE := []; EVFE := []; OBFE := []; OID := 0; EVID := 0; TM := 0; SST := 0; RST := 0; RD := [] |} end.
Lemma z_u32_lt z : z_u32 z < 2 ^ 32.
Proof. unfold z_u32. pose proof (Z.mod_pos_bound z 4294967296 eq_refl). change (2 ^ 32) with 4294967296. lia. Qed.
Lemma z_u16_lt z : z_u16 z < 2 ^ 16.
Proof. unfold z_u16. pose proof (Z.mod_pos_bound z 65536 eq_refl). change (2 ^ 16) with 65536. lia. Qed.

Lemma gen_wf_sdr g : wf_sdr (gen_sdr g) /\ exists b, sdr_encode (gen_sdr g) = Ok b /\ length b = 52%nat.
Proof.
  unfold gen_sdr, gen_package. cbn [pSFRD].
  match goal with |- context [SRPos ?x] => set (e := x) end.
  match goal with |- context [SRLiquid ?x] => set (q := x) end.
  destruct (pos_roundtrip e) as (pb & He & _ & Hpl); [reflexivity|]. change (ALTE e) with s1 in Hpl. cbn [is1] in Hpl.
  change (is1 s1) with true in Hpl. cbn iota in Hpl.
  assert (wf_liquid q = true) as Hwq.
  { unfold wf_liquid, q. cbn [LLSEF LLSVU RDF LLSN MADDR LLSD]. rewrite (proj2 (N.ltb_lt _ _) (z_u32_lt (gpLiquid g))). reflexivity. }
  destruct (liquid_roundtrip q Hwq) as (lb & Hq & _ & Hql).
  assert (blen pb = 24) as Hbp by (unfold blen; rewrite Hpl; reflexivity).
  assert (blen lb = 7) as Hbl by (unfold blen; rewrite Hql; reflexivity).
  assert (rds_encode [{| SRT := 16; SRL := 0; SRD := SRPos e |}; {| SRT := 27; SRL := 0; SRD := SRLiquid q |}]
    = Ok (([16] ++ le_enc 2 24 ++ pb) ++ ([27] ++ le_enc 2 7 ++ lb) ++ [])) as Hrd.
  { cbn [rds_encode]. unfold rd_encode. cbn [SRT SRL SRD sr_length sr_encode N.eqb].
    unfold sr_length. cbn [sr_encode]. rewrite He, Hq. cbn [bind length_of]. rewrite Hbp, Hbl. reflexivity. }
  split.
  - unfold wf_sdr. cbn [RN SST RST SSOD RSOD GRP RPP TMFE TM EVFE EVID OBFE OID RD RL].
    do 9 (split; [reflexivity|]). split.
    { unfold opt_num. cbn. pose proof (z_u32_lt (gpOid g)). change (2 ^ 32) with 4294967296 in H. lia. }
    split.
    + constructor; [|constructor; [|constructor]].
      * split; [reflexivity|]. split; [left; reflexivity|]. exists pb. split; [exact He|]. rewrite Hbp. split; [reflexivity|left; reflexivity].
      * split; [exact Hwq|]. split; [left; reflexivity|]. exists lb. split; [exact Hq|]. rewrite Hbl. split; [reflexivity|left; reflexivity].
    + eexists. split; [exact Hrd|]. rewrite !blen_app, Hbp, Hbl. split; [reflexivity|left; reflexivity].
  - unfold sdr_encode. cbn [RN SST RST SSOD RSOD GRP RPP TMFE TM EVFE EVID OBFE OID RD RL]. rewrite Hrd. cbn [bind].
    match goal with |- context [parse8 ?x] => change (parse8 x) with (Ok 19) end. cbn [bind].
    eexists. split; [reflexivity|]. rewrite !app_length, Hpl, Hql, !length_le_enc. unfold opt_w.
    change (is1 s1) with true. change (is1 s0) with false. cbn iota. rewrite !length_le_enc. reflexivity.
Qed.
Lemma gen_wf g : wf_pkg (gen_package g).
Proof.
  destruct (gen_wf_sdr g) as (Hw & b & Hb & Hl).
  assert (pSFRD (gen_package g) = Some (FSds [gen_sdr g])) as Hs by reflexivity.
  unfold wf_pkg. change (pRTE (gen_package g)) with s0. change (is1 s0) with false. cbn iota.
  do 8 (split; [reflexivity|]). split; [apply z_u16_lt|]. split; [right; reflexivity|].
  split; [repeat split|]. exists (FSds [gen_sdr g]). split; [exact Hs|]. split; [constructor; [exact Hw|constructor]|].
  split; [reflexivity|]. exists b. cbn [frame_encode sds_encode]. rewrite Hb. cbn [bind]. rewrite app_nil_r.
  split; [reflexivity|]. split; [intros ->; discriminate Hl|]. unfold blen. rewrite Hl. reflexivity.
Qed.

(** the reply is accepted by packet-gen *)
Lemma gen_ack_ok g ack svc n spare : is_ack ack (z_u16 (gpPid g)) 0 svc [n] -> gen_ack g ack spare = GExit 1 true.
Proof.
  intros (_ & _ & p & r & Hd & _ & _ & Hs & Hr & Hp & s & Hsd & _ & _ & _ & Hrd).
  unfold gen_ack. rewrite (Hd spare), Hs, Hr, Hp, Hsd, N.eqb_refl. cbn [negb N.eqb forallb]. rewrite Hrd. reflexivity.
Qed.

Lemma gen_received g : exists b, gen_bytes g = Ok b /\ good b /\
  forall spare, exists rec ack loc liq,
    process (mkSlice b spare) = PActs [ASave rec; AWrite ack] /\
    nrClientID rec = z_u32 (gpOid g) /\ nrPacketID rec = z_u16 (gpPid g) /\
    nrLocs rec = [loc] /\
    lsLat loc = coord_decode 90 (coord_encode 90 (gpLat g)) /\
    lsLng loc = coord_decode 180 (coord_encode 180 (gpLon g)) /\
    lsSpeed loc = 34 /\
    nrLiq rec = [liq] /\ lqMm liq = z_u32 (gpLiquid g) /\ lqNumber liq = 1 /\ lqModule liq = 1 /\
    blen ack <= 1024 /\ forall spare', gen_ack g ack spare' = GExit 1 true.
Proof.
  destruct (encoded_received (gen_package g) [gen_sdr g] (gen_wf g) eq_refl eq_refl eq_refl) as (p1 & b & He & Hg & H).
  exists b. split; [unfold gen_bytes; rewrite He; reflexivity|]. split; [exact Hg|]. intros spare.
  destruct (H spare) as (rec & ack & svc & H1 & H2 & _ & _ & H3 & H4 & _ & _ & H5 & H6).
  assert (positions [gen_sdr g] <> []) as Hne by discriminate.
  assert (credentials [gen_sdr g] = false) as Hcr by reflexivity. rewrite Hcr in H1. clear Hcr.
  cbn [positions subrecords gen_sdr gen_package pSFRD flat_map map RD SRD app] in H1, H2.
  inversion H2 as [|e loc ? ? Hloc Hnil Heq1 Heq2]; subst. inversion Hnil; subst.
  change (liquids [gen_sdr g]) with [match RD (gen_sdr g) with _ :: r :: _ => match SRD r with SRLiquid q => q | _ => {| LLSEF := []; LLSVU := []; RDF := []; LLSN := 0; MADDR := 0; LLSD := 0 |} end
     | _ => {| LLSEF := []; LLSVU := []; RDF := []; LLSN := 0; MADDR := 0; LLSD := 0 |} end] in H3.
  cbn [gen_sdr gen_package pSFRD RD SRD] in H3. inversion H3 as [|q liq ? ? Hliq Hnil' Heq3 Heq4]; subst. inversion Hnil'; subst.
  exists rec, ack, loc, liq. split; [exact H1|]. split; [exact H4|]. split; [apply H5; reflexivity|].
  split; [auto|]. destruct Hloc as (L1 & L2 & L3 & _). cbn [quant_pos Latitude Longitude Speed] in L1, L2, L3.
  split; [exact L1|]. split; [exact L2|]. split; [exact L3|]. split; [auto|].
  destruct Hliq as (Qn & Qm & _ & _ & Q & _). split; [apply Q; left; reflexivity|]. split; [exact Qn|]. split; [exact Qm|].
  assert (is_ack ack (z_u16 (gpPid g)) 0 svc [1]) as Hi by exact H6.
  split; [|intros spare'; exact (gen_ack_ok g ack svc 1 spare' Hi)].
  destruct Hi as (_ & Hl & _). rewrite Hl. cbn. lia.
Qed.
Lemma gen_never_zero pid oid liquid ts lat lon parse net ok : gen_main pid oid liquid ts lat lon parse net <> GExit 0 ok.
Proof.
  unfold gen_main, gen_ack.
  repeat match goal with |- context [match ?x with _ => _ end] => destruct x; try discriminate end.
Qed.
(** The network hands [b] to the receiver and brings back its only reply. *)
Definition delivers (net : bytes -> gen_net) (b : bytes) : Prop :=
  exists spare acts ack spare', process (mkSlice b spare) = PActs acts /\ writes acts = [ack] /\ net b = NetAck ack spare'.
Lemma gen_main_received pid oid liquid ts lat lon parse t (net : bytes -> gen_net) :
  (pid <> 0)%Z -> (oid <> 0)%Z -> ts <> [] -> parse ts = Some t ->
  (forall b, gen_bytes (mkGen pid oid t liquid lat lon) = Ok b -> delivers net b) ->
  gen_main pid oid liquid ts lat lon parse net = GExit 1 true.
Proof.
  intros Hp Ho Ht Hparse Hnet. unfold gen_main.
  rewrite (proj2 (Z.eqb_neq _ _) Hp), (proj2 (Z.eqb_neq _ _) Ho). destruct ts as [|c ts]; [congruence|]. rewrite Hparse.
  set (g := mkGen pid oid t liquid lat lon) in *.
  destruct (gen_received g) as (b & Hb & Hg & H). rewrite Hb. specialize (Hnet b Hb).
  destruct Hnet as (spare & acts & ack & spare' & Hpr & Hw & ->).
  destruct (H spare) as (rec & ack' & loc & liq & H1 & _ & _ & _ & _ & _ & _ & _ & _ & _ & _ & _ & H2).
  rewrite Hpr in H1. assert (Hinj : forall a c, PActs a = PActs c -> a = c) by (intros a c0 Hac; congruence).
  apply Hinj in H1. subst acts. cbn in Hw. injection Hw as <-. apply H2.
Qed.
(** such a network exists *)
Definition echo_net (b : bytes) : gen_net :=
  match process (mkSlice b []) with
  | PActs acts => match writes acts with [ack] => NetAck ack [] | _ => NetFail end
  | _ => NetFail
  end.
Lemma echo_delivers g b : gen_bytes g = Ok b -> delivers echo_net b.
Proof.
  intros Hb. destruct (gen_received g) as (b' & Hb' & Hg & H). rewrite Hb in Hb'. injection Hb' as <-.
  destruct (H []) as (rec & ack' & loc & liq & H1 & _).
  exists [], [ASave rec; AWrite ack'], ack', []. split; [exact H1|]. split; [reflexivity|]. unfold echo_net. rewrite H1. reflexivity.
Qed.
Lemma gen_time_ignored pid oid liquid ts ts' lat lon (parse : gostr -> option Z) net : ts <> [] -> ts' <> [] ->
  parse ts <> None -> parse ts' <> None ->
  gen_main pid oid liquid ts lat lon parse net = gen_main pid oid liquid ts' lat lon parse net.
Proof.
  intros H1 H2 H3 H4. unfold gen_main. destruct ts, ts'; try congruence.
  destruct (parse _); [|congruence]. destruct (parse _); [|congruence]. reflexivity.
Qed.
Lemma gen_saved_time g b spare acts rec : gen_bytes g = Ok b -> process (mkSlice b spare) = PActs acts ->
  In rec (saves acts) -> nrNavTs rec = 1613781040%Z.
Proof.
  destruct (encoded_received (gen_package g) [gen_sdr g] (gen_wf g) eq_refl eq_refl eq_refl) as (p1 & b' & He & Hg & H).
  unfold gen_bytes. rewrite He. intros Hb. injection Hb as <-. intros Hp Hin.
  destruct (H spare) as (rec' & ack & svc & H1 & H2 & _ & _ & _ & _ & _ & H4 & _).
  rewrite Hp in H1. assert (forall a c, PActs a = PActs c -> a = c) as Hinj by (intros a c Hac; congruence).
  apply Hinj in H1. subst acts.
  assert (credentials [gen_sdr g] = false) as Hcr by reflexivity. rewrite Hcr in Hin. clear Hcr.
  cbn [positions subrecords gen_sdr gen_package pSFRD flat_map map RD SRD app] in Hin, H4.
  destruct Hin as [<-|[]]. rewrite H4. cbn [last NavigationTime]. vm_compute. reflexivity.
Qed.
Lemma gen_crashes g : exists ack, (forall spare, gen_ack g ack spare = GPanic) /\ framed ack.
Proof.
  destruct (ack_ok (z_u16 (gpPid g)) 0 0 [] (z_u16_lt _) eq_refl eq_refl (Forall_nil _) ltac:(cbn; lia)) as (b & _ & Hi).
  exists b. split; [|apply Hi]. intros spare. destruct Hi as (_ & _ & p & r & Hd & _ & _ & Hs & Hr & Hp & Hsd).
  unfold gen_ack. rewrite (Hd spare), Hs, Hr, Hp, Hsd, N.eqb_refl. reflexivity.
Qed.

(** ** The verdict of packet-gen, exactly *)
Lemma status_ok_iff l : forallb (fun rec => forallb status_ok (RD rec)) l = true <->
  forall s d n st, In s l -> In d (RD s) -> SRT d = 0 -> SRD d = SRResp n st -> st = 0.
Proof.
  rewrite forallb_forall. split.
  - intros H s d n st Hs Hd H0 Hr. specialize (H s Hs). rewrite forallb_forall in H. specialize (H d Hd).
    unfold status_ok in H. rewrite H0, Hr in H. cbn [N.eqb] in H. apply N.eqb_eq. exact H.
  - intros H s Hs. apply forallb_forall. intros d Hd. unfold status_ok.
    destruct (SRT d =? 0) eqn:H0; [|reflexivity]. apply N.eqb_eq in H0.
    destruct (SRD d) eqn:Hr; try reflexivity. apply N.eqb_eq. exact (H s d _ _ Hs Hd H0 Hr).
Qed.

Lemma gen_success_iff g ack spare : gen_ack g ack spare = GExit 1 true <->
  exists p code r l, pkg_decode pkg0 (mkSlice ack spare) = (p, DRet code false) /\
    pSFRD p = Some (FResp r) /\ RPID r = z_u16 (gpPid g) /\ PR r = 0 /\ SDRS r = Some l /\
    forall s d n st, In s l -> In d (RD s) -> SRT d = 0 -> SRD d = SRResp n st -> st = 0.
Proof.
  unfold gen_ack. split.
  - destruct (pkg_decode pkg0 (mkSlice ack spare)) as [p [code [|]| |]]; [discriminate| |discriminate|discriminate].
    destruct (pSFRD p) as [[l|r]|] eqn:Hs; [discriminate| |discriminate].
    destruct (RPID r =? z_u16 (gpPid g)) eqn:Hr; cbn [negb]; [|discriminate].
    destruct (PR r =? 0) eqn:Hp; cbn [negb]; [|discriminate].
    destruct (SDRS r) as [l|] eqn:Hl; [|discriminate].
    destruct (forallb _ l) eqn:Hf; [|discriminate]. intros _. exists p, code, r, l.
    apply N.eqb_eq in Hr, Hp. split; [reflexivity|]. split; [exact Hs|]. split; [exact Hr|]. split; [exact Hp|].
    split; [exact Hl|]. apply status_ok_iff. exact Hf.
  - intros (p & code & r & l & Hd & Hs & Hr & Hp & Hl & Hf). rewrite Hd, Hs, Hr, Hp, Hl, N.eqb_refl.
    cbn [negb N.eqb]. apply status_ok_iff in Hf. rewrite Hf. reflexivity.
Qed.

Lemma gen_panic_iff g ack spare : bytes_ok ack = true -> (gen_ack g ack spare = GPanic <->
  panics ack spare \/
  exists p code r, pkg_decode pkg0 (mkSlice ack spare) = (p, DRet code false) /\
    pSFRD p = Some (FResp r) /\ RPID r = z_u16 (gpPid g) /\ PR r = 0 /\ SDRS r = None).
Proof.
  intros Hok. pose proof (panic_iff pkg0 ack spare Hok) as Hpi. unfold gen_ack. split.
  - destruct (pkg_decode pkg0 (mkSlice ack spare)) as [p [code [|]| |]]; cbn [snd] in Hpi;
      [discriminate| |intros _; left; apply Hpi; reflexivity|discriminate].
    destruct (pSFRD p) as [[l|r]|] eqn:Hs; [discriminate| |discriminate].
    destruct (RPID r =? z_u16 (gpPid g)) eqn:Hr; cbn [negb]; [|discriminate].
    destruct (PR r =? 0) eqn:Hp; cbn [negb]; [|discriminate].
    destruct (SDRS r) as [l|] eqn:Hl; [destruct (forallb _ l); discriminate|].
    intros _. right. exists p, code, r. apply N.eqb_eq in Hr, Hp. repeat split; assumption.
  - intros [Hp|(p & code & r & Hd & Hs & Hr & Hp & Hl)].
    + apply Hpi in Hp. destruct (pkg_decode pkg0 (mkSlice ack spare)) as [p o]. cbn [snd] in Hp. rewrite Hp. reflexivity.
    + rewrite Hd, Hs, Hr, Hp, Hl, N.eqb_refl. reflexivity.
Qed.

Lemma gen_main_success_iff pid oid liquid ts lat lon parse net :
  gen_main pid oid liquid ts lat lon parse net = GExit 1 true <->
  pid <> 0%Z /\ oid <> 0%Z /\ ts <> [] /\ exists t b ack spare, parse ts = Some t /\
    gen_bytes (mkGen pid oid t liquid lat lon) = Ok b /\ net b = NetAck ack spare /\
    gen_ack (mkGen pid oid t liquid lat lon) ack spare = GExit 1 true.
Proof.
  unfold gen_main. split.
  - destruct (Z.eqb_spec pid 0) as [|H1]; [discriminate|]. destruct (Z.eqb_spec oid 0) as [|H2]; [discriminate|].
    destruct ts as [|x ts]; [discriminate|]. destruct (parse (x :: ts)) as [t|] eqn:Ht; [|discriminate]. cbv zeta.
    destruct (gen_bytes _) as [b| | |] eqn:Hb; [|discriminate..].
    destruct (net b) as [|ack spare] eqn:Hn; [discriminate|]. intros H.
    split; [exact H1|]. split; [exact H2|]. split; [discriminate|]. exists t, b, ack, spare.
    repeat split; assumption.
  - intros (H1 & H2 & H3 & t & b & ack & spare & Ht & Hb & Hn & Ha).
    apply Z.eqb_neq in H1, H2. rewrite H1, H2. destruct ts; [contradiction|]. rewrite Ht. cbv zeta. rewrite Hb, Hn. exact Ha.
Qed.

Lemma gen_nack g ack code svc nums spare : is_ack ack (z_u16 (gpPid g)) code svc nums -> code <> 0 ->
  gen_ack g ack spare = GExit 1 false.
Proof.
  intros (_ & _ & p & r & Hd & _ & _ & Hs & Hr & Hp & _) Hc. unfold gen_ack. rewrite (Hd spare), Hs, Hr, Hp, N.eqb_refl.
  cbn [negb]. apply N.eqb_neq in Hc. rewrite Hc. reflexivity.
Qed.
End GlueGen.
