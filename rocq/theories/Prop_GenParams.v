(** * Prop_GenParams: C148 — which parameters packet-gen's packet tells apart. *)
From Coq Require Import String List Lia ZifyBool ZifyN ZifyNat.
From Verif Require Import GoBase Crc Float64 SubRecords Records Package Storage Server PacketGen
  Spec_Bits Spec_Wf Spec_Rec Spec_Pkg Spec_Server BaseFacts PkgFacts PkgFacts3 GlueGen Vectors.
Import ListNotations.
Local Open Scope N_scope.
Local Open Scope list_scope.

Section GenParams.
Context {E : go_env}.
Lemma coord_u32 full x : coord_encode full x < 2 ^ 32.
Proof.
  unfold coord_encode, f_to_u32. destruct (f_mul _ _); try reflexivity; try (apply N.mod_lt; discriminate).
  destruct (andb _ _) eqn:Ha; [|apply N.mod_lt; discriminate]. apply Bool.andb_true_iff in Ha. apply N.ltb_lt. apply Ha.
Qed.
(** The body of packet-gen's packet, 52 bytes, given the four values that vary. *)
Definition gen_body (oid lat lon liquid : N) : bytes :=
  [37; 0; 1; 0; 19] ++ le_enc 4 oid ++ [108; 13; 0; 0; 2; 2; 16; 24; 0; 48; 29; 243; 20] ++ le_enc 4 lat ++ le_enc 4 lon ++
  [155; 84; 1; 172; 191; 0; 0; 144; 0; 30; 0; 0; 27; 7; 0; 65; 1; 0] ++ le_enc 4 liquid.
Definition gen_header (pid : N) : bytes := [1; 0; 2; 11; 0; 52; 0] ++ le_enc 2 pid ++ [1].
Definition gen_packet (pid oid lat lon liquid : N) : bytes :=
  gen_header pid ++ [crc8 (gen_header pid)] ++ gen_body oid lat lon liquid ++ le_enc 2 (crc16 (gen_body oid lat lon liquid)).

Lemma ok_inj {A} (a b : A) : Ok a = Ok b -> a = b.
Proof. congruence. Qed.
Lemma blen_le k v : blen (le_enc k v) = N.of_nat k.
Proof. unfold blen. rewrite length_le_enc. reflexivity. Qed.
Lemma body_blen oid lat lon liquid : blen (gen_body oid lat lon liquid) = 52.
Proof. unfold gen_body. rewrite !blen_app, !blen_le. reflexivity. Qed.
Lemma body_ok g : sds_encode [gen_sdr g] = Ok (gen_body (z_u32 (gpOid g)) (coord_encode 90 (gpLat g)) (coord_encode 180 (gpLon g)) (z_u32 (gpLiquid g))).
Proof.
  unfold gen_sdr, gen_package. cbn [pSFRD].
  match goal with |- context [SRPos ?x] => set (e := x) end.
  match goal with |- context [SRLiquid ?x] => set (q := x) end.
  assert (He : pos_encode e = Ok (([48; 29; 243; 20] ++ le_enc 4 (coord_encode 90 (gpLat g)) ++ le_enc 4 (coord_encode 180 (gpLon g)) ++
      [155; 84; 1; 172; 191; 0; 0; 144; 0; 30; 0; 0]))).
  { unfold pos_encode, e. cbn [NavigationTime Latitude Longitude ALTE LOHS LAHS MV BB CS FIX VLD].
    match goal with |- context [parse8 ?x] => change (parse8 x) with (Ok 155) end. cbn [bind].
    match goal with |- context [time_encode gen_time] => change (le_enc 4 (time_encode gen_time)) with [48; 29; 243; 20] || fail end.
    reflexivity. }
  assert (Hq : liquid_encode q = Ok ([65; 1; 0] ++ le_enc 4 (z_u32 (gpLiquid g)))).
  { unfold liquid_encode, q. cbn [LLSEF LLSVU RDF LLSN MADDR LLSD].
    match goal with |- context [parse8 ?x] => change (parse8 x) with (Ok 65) end. reflexivity. }
  set (pb := [48; 29; 243; 20] ++ _) in He. set (lb := [65; 1; 0] ++ _) in Hq.
  assert (Hbp : blen pb = 24) by (unfold pb; rewrite !blen_app, !blen_le; reflexivity).
  assert (Hbl : blen lb = 7) by (unfold lb; rewrite !blen_app, !blen_le; reflexivity).
  assert (Hrd : rds_encode [{| SRT := 16; SRL := 0; SRD := SRPos e |}; {| SRT := 27; SRL := 0; SRD := SRLiquid q |}]
    = Ok (([16] ++ le_enc 2 24 ++ pb) ++ ([27] ++ le_enc 2 7 ++ lb) ++ [])).
  { cbn [rds_encode]. unfold rd_encode. cbn [SRT SRL SRD sr_length sr_encode N.eqb].
    unfold sr_length. cbn [sr_encode]. rewrite He, Hq. cbn [bind length_of]. rewrite Hbp, Hbl. reflexivity. }
  cbn [sds_encode]. unfold sdr_encode. cbn [RN SST RST SSOD RSOD GRP RPP TMFE TM EVFE EVID OBFE OID RD RL]. rewrite Hrd. cbn [bind].
  match goal with |- context [parse8 ?x] => change (parse8 x) with (Ok 19) end. cbn [bind].
  match goal with |- context [blen ?x] => assert (Hb : blen x = 37) by (rewrite !blen_app, Hbp, Hbl; reflexivity); rewrite Hb; clear Hb end.
  unfold opt_w. change (is1 s1) with true. change (is1 s0) with false. cbn iota. change (0 =? 0) with true. cbv iota.
  unfold pb, lb, gen_body. rewrite !app_nil_r. reflexivity.
Qed.
Lemma packet_bytes g : gen_bytes g = Ok (gen_packet (z_u16 (gpPid g)) (z_u32 (gpOid g)) (coord_encode 90 (gpLat g)) (coord_encode 180 (gpLon g)) (z_u32 (gpLiquid g))).
Proof.
  unfold gen_bytes. destruct (pkg_encode (gen_package g)) as [p1 r] eqn:He.
  assert (exists b, r = Ok b) as (b & ->).
  { destruct (gen_received g) as (b & Hb & _). unfold gen_bytes in Hb. rewrite He in Hb. cbn [snd] in Hb. exists b. exact Hb. }
  cbn [snd]. f_equal. apply pkg_encode_ok in He. destruct He as (fl & body & Hf & Hb & _ & ->).
  change (pSFRD (gen_package g)) with (Some (FSds [gen_sdr g])) in Hb. change (frame_encode (Some (FSds [gen_sdr g]))) with (sds_encode [gen_sdr g]) in Hb.
  rewrite body_ok in Hb. apply ok_inj in Hb. subst body. rewrite body_blen. change (u16 52) with 52.
  assert (fl = 2) as ->. { cbn [gen_package pPRF pRTE pENA pCMP pPR] in Hf. vm_compute in Hf. injection Hf as Hf. symmetry. exact Hf. }
  reflexivity.
Qed.
Lemma app_split (a b c d : bytes) : length a = length c -> a ++ b = c ++ d -> a = c /\ b = d.
Proof. revert c. induction a as [|x a IH]; intros [|y c] Hl H; try discriminate Hl; [auto|]. injection H as -> H. injection Hl as Hl. destruct (IH c Hl H) as [-> ->]. auto. Qed.
Lemma packet_inj pid oid lat lon liq pid' oid' lat' lon' liq' :
  pid < 2 ^ 16 -> pid' < 2 ^ 16 -> oid < 2 ^ 32 -> oid' < 2 ^ 32 -> lat < 2 ^ 32 -> lat' < 2 ^ 32 -> lon < 2 ^ 32 -> lon' < 2 ^ 32 -> liq < 2 ^ 32 -> liq' < 2 ^ 32 ->
  gen_packet pid oid lat lon liq = gen_packet pid' oid' lat' lon' liq' -> pid = pid' /\ oid = oid' /\ lat = lat' /\ lon = lon' /\ liq = liq'.
Proof.
  intros A A' B B' C C' D D' G G' H. unfold gen_packet in H.
  apply app_split in H; [|reflexivity]. destruct H as [Hh H]. apply app_split in H; [|reflexivity]. destruct H as [_ H].
  apply app_split in H; [|pose proof (body_blen oid lat lon liq) as X; pose proof (body_blen oid' lat' lon' liq') as Y; unfold blen in X, Y; lia].
  destruct H as [Hb _]. unfold gen_header in Hh. apply app_inv_head in Hh. apply app_split in Hh; [|rewrite !length_le_enc; reflexivity]. destruct Hh as [Hp _].
  unfold gen_body in Hb. apply app_inv_head in Hb. apply app_split in Hb; [|rewrite !length_le_enc; reflexivity]. destruct Hb as [Ho Hb].
  apply app_inv_head in Hb. apply app_split in Hb; [|rewrite !length_le_enc; reflexivity]. destruct Hb as [Hla Hb].
  apply app_split in Hb; [|rewrite !length_le_enc; reflexivity]. destruct Hb as [Hlo Hb]. apply app_inv_head in Hb.
  apply le_enc_inj in Hp; [|assumption..]. apply le_enc_inj in Ho; [|assumption..]. apply le_enc_inj in Hla; [|assumption..].
  apply le_enc_inj in Hlo; [|assumption..]. apply le_enc_inj in Hb; [|assumption..]. auto.
Qed.
Lemma same_packet g g' : gen_bytes g = gen_bytes g' <->
  (gpPid g mod 2 ^ 16 = gpPid g' mod 2 ^ 16 /\ gpOid g mod 2 ^ 32 = gpOid g' mod 2 ^ 32 /\ gpLiquid g mod 2 ^ 32 = gpLiquid g' mod 2 ^ 32)%Z /\
  coord_encode 90 (gpLat g) = coord_encode 90 (gpLat g') /\ coord_encode 180 (gpLon g) = coord_encode 180 (gpLon g').
Proof.
  assert (A : forall x y, z_u16 x = z_u16 y <-> (x mod 2 ^ 16 = y mod 2 ^ 16)%Z).
  { intros x y. unfold z_u16. change (2 ^ 16)%Z with 65536%Z. pose proof (Z.mod_pos_bound x 65536 eq_refl). pose proof (Z.mod_pos_bound y 65536 eq_refl). lia. }
  assert (B : forall x y, z_u32 x = z_u32 y <-> (x mod 2 ^ 32 = y mod 2 ^ 32)%Z).
  { intros x y. unfold z_u32. change (2 ^ 32)%Z with 4294967296%Z. pose proof (Z.mod_pos_bound x 4294967296 eq_refl). pose proof (Z.mod_pos_bound y 4294967296 eq_refl). lia. }
  rewrite <- A, <- !B, !packet_bytes. split.
  - intros H. apply ok_inj in H. apply packet_inj in H; try apply z_u16_lt; try apply z_u32_lt; try apply coord_u32. tauto.
  - intros ((-> & -> & ->) & -> & ->). reflexivity.
Qed.
Lemma never_south g : exists b p l e, gen_bytes g = Ok b /\ decodes_to b p /\ pSFRD p = Some (FSds l) /\ positions l = [e] /\ LAHS e = s0 /\ LOHS e = s0.
Proof.
  destruct (encoded_good (gen_package g) (gen_wf g) eq_refl) as (p1 & b & p' & hdr & body & He & _ & _ & Hd & Hf).
  exists b, p'. unfold gen_bytes. rewrite He. cbn [snd].
  destruct Hf as (_ & _ & _ & _ & _ & _ & _ & _ & _ & _ & _ & _ & _ & _ & _ & _ & _ & f & f' & H1 & H2 & H3).
  change (pSFRD (gen_package g)) with (Some (FSds [gen_sdr g])) in H1.
  assert (f = FSds [gen_sdr g]) as -> by congruence. destruct f' as [l'|r]; [|contradiction H3]. cbn [filled_frame] in H3.
  exists l'. pose proof (filled_positions _ _ H3) as Hp. cbn [positions subrecords gen_sdr gen_package pSFRD flat_map map RD SRD app] in Hp.
  eexists. split; [reflexivity|]. split; [exact Hd|]. split; [exact H2|]. split; [exact Hp|]. split; reflexivity.
Qed.
End GenParams.

(** ** C148: packet-gen sends the values it was given, or reports an error.
    Refuted: it always sends a packet; numbers too large for their field are
    sent modulo its size; and every position is sent as northern and eastern,
    whatever the sign of -lat and -lon. *)
Theorem C148_values_sent_refuted : forall (E : go_env) pid oid t liquid lat lon i j k,
  gen_bytes (mkGen (pid + 65536 * i) (oid + 4294967296 * j) t (liquid + 4294967296 * k) lat lon) = gen_bytes (mkGen pid oid t liquid lat lon).
Proof.
  intros E pid oid t liquid lat lon i j k. apply same_packet. cbn [gpPid gpOid gpLiquid gpLat gpLon].
  change (2 ^ 16)%Z with 65536%Z. change (2 ^ 32)%Z with 4294967296%Z.
  rewrite !(Z.mul_comm _ i), !(Z.mul_comm _ j), !(Z.mul_comm _ k), !Z.mod_add by lia. auto.
Qed.
Theorem C148_never_south_or_west : forall (E : go_env) g, exists b p l e,
  gen_bytes g = Ok b /\ decodes_to b p /\ pSFRD p = Some (FSds l) /\ positions l = [e] /\ LAHS e = s0 /\ LOHS e = s0.
Proof. exact @never_south. Qed.
(** Exactly: two runs send the same packet if and only if the numbers agree
    modulo the sizes of their fields and the coordinates are sent as the same
    quantum; nothing else has any influence. *)
Theorem C148_same_packet_exactly : forall (E : go_env) g g', gen_bytes g = gen_bytes g' <->
  (gpPid g mod 2 ^ 16 = gpPid g' mod 2 ^ 16 /\ gpOid g mod 2 ^ 32 = gpOid g' mod 2 ^ 32 /\ gpLiquid g mod 2 ^ 32 = gpLiquid g' mod 2 ^ 32)%Z /\
  coord_encode 90 (gpLat g) = coord_encode 90 (gpLat g') /\ coord_encode 180 (gpLon g) = coord_encode 180 (gpLon g').
Proof. exact @same_packet. Qed.
(** The packet itself, byte for byte ([gen_packet] above). *)
Theorem C148_packet_bytes : forall (E : go_env) g, gen_bytes g =
  Ok (gen_packet (z_u16 (gpPid g)) (z_u32 (gpOid g)) (coord_encode 90 (gpLat g)) (coord_encode 180 (gpLon g)) (z_u32 (gpLiquid g))).
Proof. exact @packet_bytes. Qed.
(** The program of C57 asks for a packet number but lets 65536 pass, which is
    sent as 0; and 7 and 8 differ. *)
Example C148_example : forall E : go_env,
  gen_bytes (mkGen 65536 1 0 300 (f_of_Z 55) (f_of_Z 37)) = gen_bytes (mkGen 0 1 0 300 (f_of_Z 55) (f_of_Z 37)) /\
  gen_bytes (mkGen 7 1 0 300 (f_of_Z 55) (f_of_Z 37)) <> gen_bytes (mkGen 8 1 0 300 (f_of_Z 55) (f_of_Z 37)) /\
  gen_bytes (mkGen 7 1 0 300 (f_of_Z 55) (f_of_Z 37)) <> gen_bytes (mkGen 7 1 0 300 (f_of_Z 56) (f_of_Z 37)).
Proof.
  intros E. split; [exact (C148_values_sent_refuted E 0 1 0 300 _ _ 1 0 0)|].
  split; intros H; apply same_packet in H; destruct H as ((H1 & _) & H2 & _); vm_compute in H1, H2; first [discriminate H1|discriminate H2].
Qed.
Print Assumptions C148_values_sent_refuted.
Print Assumptions C148_never_south_or_west.
Print Assumptions C148_same_packet_exactly.
Print Assumptions C148_packet_bytes.
