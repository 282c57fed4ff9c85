(** * Glue: the property theorems of Prop_Decode and Prop_Package in their
    final form, derived from the characterisations of PkgFacts*.v. *)
From Coq Require Import Lia ZifyBool ZifyNat ZifyN.
From Verif Require Import GoBase Crc Float64 SubRecords Records Package
  Spec_Bits Spec_Wf Spec_Rec Spec_Crc Spec_Pkg BaseFacts CrcFacts SubFacts RecFacts DecFacts
  PkgFacts PkgFacts2 PkgFacts3 TruncFacts.

Section Glue.
Context {E : go_env}.

Lemma accept_sound p data spare p' e : bytes_ok data = true ->
  pkg_decode p (mkSlice data spare) = (p', DRet 0 e) ->
  let m := data ++ spare in
  e = false /\
  1 + N.of_nat (hcs_pos data) + decl_fdl data < blen data /\
  byte_at data (hcs_pos data) = crc8 (area m 0 (if decl_hl data =? 0 then 255 else decl_hl data - 1)) /\
  sfrcs_of data = crc16 (area m (decl_hl data) (decl_fdl data)) /\
  blen (area m (decl_hl data) (decl_fdl data)) = decl_fdl data /\
  (byte_at data 9 = 0 \/ byte_at data 9 = 1) /\
  header_agrees data p' /\
  exists f, pSFRD p' = Some f /\ frame_decode (byte_at data 9) (frame_of data) = Ok f.
Proof.
  intros Hb H. cbv zeta. apply accept_iff in H; [|exact Hb]. destruct H as (-> & f & Ha & ->).
  destruct Ha as (A1 & A2 & A3 & A4 & A5 & A6 & A7 & A8).
  assert (Hhl : decl_hl data < 256) by (apply bytes_ok_nth; exact Hb).
  assert (U : u8 (decl_hl data + 255) = if decl_hl data =? 0 then 255 else decl_hl data - 1).
  { unfold u8. destruct (N.eqb_spec (decl_hl data) 0) as [->|]; [reflexivity|].
    replace (decl_hl data + 255) with (decl_hl data - 1 + 1 * 256) by lia.
    rewrite N.mod_add by lia. apply N.mod_small. lia. }
  split; [reflexivity|]. split; [unfold frame_pos, blen in *; lia|].
  split; [rewrite <- U; exact A3|]. split; [exact A8|].
  split. { unfold area, blen in *. rewrite firstn_length, skipn_length. lia. }
  split; [exact A4|]. split; [apply final_agrees; exact Hb|].
  exists f. split; [reflexivity|exact A5].
Qed.

(** the converse: these conditions suffice *)
Lemma accept_complete p data spare f : bytes_ok data = true ->
  let m := data ++ spare in
  1 + N.of_nat (hcs_pos data) + decl_fdl data < blen data ->
  1 <= decl_hl data -> decl_hl data - 1 <= blen m ->
  decl_hl data + decl_fdl data < 2 ^ 16 -> decl_hl data + decl_fdl data <= blen m ->
  byte_at data (hcs_pos data) = crc8 (area m 0 (decl_hl data - 1)) ->
  sfrcs_of data = crc16 (area m (decl_hl data) (decl_fdl data)) ->
  (byte_at data 9 = 0 \/ byte_at data 9 = 1) ->
  frame_decode (byte_at data 9) (frame_of data) = Ok f ->
  exists p', pkg_decode p (mkSlice data spare) = (p', DRet 0 false) /\ header_agrees data p' /\ pSFRD p' = Some f.
Proof.
  intros Hb m H1 H2 H3 H4 H5 H6 H7 H8 H9.
  assert (Hhl : decl_hl data < 256) by (apply bytes_ok_nth; exact Hb).
  assert (U : u8 (decl_hl data + 255) = decl_hl data - 1).
  { unfold u8. replace (decl_hl data + 255) with (decl_hl data - 1 + 1 * 256) by lia.
    rewrite N.mod_add by lia. apply N.mod_small. lia. }
  exists (final_of p data f). split; [|split; [apply final_agrees; exact Hb|reflexivity]].
  apply accept_iff; [exact Hb|]. split; [reflexivity|]. exists f. split; [|reflexivity].
  unfold accepted. cbv zeta. fold m. rewrite U. unfold frame_pos, blen in *.
  repeat split; try assumption; lia.
Qed.

(** C03, header inlined *)
Lemma burst_rejected p q hdr body body' rest spare p' e :
  bytes_ok (hdr ++ body ++ rest) = true -> bytes_ok body' = true ->
  length hdr = frame_pos hdr -> decl_hl hdr = std_hl hdr -> decl_fdl hdr = blen body ->
  pkg_decode p (mkSlice (hdr ++ body ++ rest) spare) = (p', DRet 0 e) ->
  burst 16 body body' ->
  exists q' code, pkg_decode q (mkSlice (hdr ++ body' ++ rest) spare) = (q', DRet code true) /\ code <> 0.
Proof.
  intros Hb Hb' H1 H2 H3 Hd Hbu. rewrite !bytes_ok_app in Hb. apply andb_prop in Hb. destruct Hb as [B1 Hb].
  apply andb_prop in Hb. destruct Hb as [B2 B3].
  assert (e = false) as ->.
  { apply accept_iff in Hd; [tauto|]. rewrite !bytes_ok_app, B1, B2, B3. reflexivity. }
  refine (body_burst_rejected p q hdr body body' rest spare p' B1 B2 Hb' B3 _ Hd Hbu). unfold std_packet. unfold std_hl, blen in *. split; [exact H1|]. split; [lia|exact H3].
Qed.

(** C04 *)
Lemma header_rejected p q pre x y post rest spare p' e :
  bytes_ok (pre ++ x :: post) = true -> byte_ok y = true -> bytes_ok rest = true -> x <> y ->
  let hdr := pre ++ x :: post in let hdr' := pre ++ y :: post in
  length hdr = frame_pos hdr -> decl_hl hdr = std_hl hdr ->
  length pre <> 3%nat -> (length pre = 2%nat -> routed hdr' = routed hdr) ->
  pkg_decode p (mkSlice (hdr ++ rest) spare) = (p', DRet 0 e) ->
  snd (pkg_decode q (mkSlice (hdr' ++ rest) spare)) = DRet 137 true.
Proof.
  intros B1 B2 B3 Hxy hdr hdr' H1 H2 H3 H4 Hd.
  assert (e = false) as ->.
  { apply accept_iff in Hd; [tauto|]. rewrite bytes_ok_app, B3. unfold hdr. rewrite B1. reflexivity. }
  refine (header_byte_rejected p q pre x y post rest spare p' B1 B2 B3 Hxy H1 _ _ H3 Hd).
  - unfold std_hl in H2. unfold hdr in *. unfold blen. lia.
  - destruct (Nat.eq_dec (length pre) 2) as [E2|E2]; [apply H4; exact E2|].
    unfold routed, byte_at. fold hdr hdr'. f_equal. unfold hdr, hdr'.
    destruct (le_lt_dec (length pre) 2) as [L|L].
    + rewrite !app_nth2 by lia. destruct (2 - length pre)%nat eqn:En; [lia|reflexivity].
    + rewrite !app_nth1 by lia. reflexivity.
Qed.

(** C05: always 137, never 138 *)
Lemma body_crc_code p hdr body rest spare f :
  bytes_ok (hdr ++ body ++ rest) = true ->
  length hdr = frame_pos hdr -> decl_hl hdr = std_hl hdr -> decl_fdl hdr = blen body ->
  length rest = 2%nat -> blen hdr + blen body < 2 ^ 16 ->
  byte_at hdr (hcs_pos hdr) = crc8 (firstn (hcs_pos hdr) hdr) ->
  (byte_at hdr 9 = 0 \/ byte_at hdr 9 = 1) ->
  frame_decode (byte_at hdr 9) body = Ok f ->
  word_at rest 0 <> crc16 body ->
  snd (pkg_decode p (mkSlice (hdr ++ body ++ rest) spare)) = DRet 137 true.
Proof.
  intros Hb H1 H2 H3 H4 H5 H6 H7 H8 H9. refine (wrong_body_crc p hdr body rest spare f Hb _ _ H5 H6 H7 H8 H9).
  - unfold std_packet, std_hl, blen in *. repeat split; [exact H1|lia|exact H3].
  - destruct rest; [discriminate|discriminate].
Qed.
(** no input at all gets code 138 *)
Lemma never_138 p data spare e : bytes_ok data = true ->
  snd (pkg_decode p (mkSlice data spare)) <> DRet 138 e.
Proof.
  intros Hb. rewrite decode_out by exact Hb. unfold outcome. cbv zeta.
  destruct (length data <=? hcs_pos data)%nat; [discriminate|].
  destruct (_ <? _); [discriminate|]. destruct (negb _); [discriminate|].
  destruct (_ <=? _)%nat; [discriminate|]. destruct (negb _); [discriminate|].
  destruct (frame_decode _ _); cbn [ares]; try discriminate.
  destruct (_ <=? _)%nat; [discriminate|]. destruct (_ || _); [discriminate|].
  destruct (_ =? _); discriminate.
Qed.

(** C07 *)
Lemma decode_terminates p data spare : bytes_ok data = true ->
  exists p' , (exists code e, pkg_decode p (mkSlice data spare) = (p', DRet code e)) \/
              pkg_decode p (mkSlice data spare) = (p', DPanic).
Proof.
  intros Hb. pose proof (decode_no_fuel p data spare Hb) as H.
  destruct (pkg_decode p (mkSlice data spare)) as [p' [c e| |]] eqn:Ed; cbn [snd] in H; exists p'; eauto. contradiction.
Qed.

(** C10 *)
Lemma prefix_cases p hdr body a b spare p' e :
  bytes_ok (hdr ++ body ++ [a; b]) = true ->
  length hdr = frame_pos hdr -> decl_hl hdr = std_hl hdr -> decl_fdl hdr = blen body ->
  pkg_decode p (mkSlice (hdr ++ body ++ [a; b]) spare) = (p', DRet 0 e) ->
  forall k spare' q' e', (k < length (hdr ++ body ++ [a; b]))%nat ->
  pkg_decode p (mkSlice (firstn k (hdr ++ body ++ [a; b])) spare') = (q', DRet 0 e') ->
  b = 0 /\ firstn k (hdr ++ body ++ [a; b]) = hdr ++ body ++ [a] /\ q' = p'.
Proof.
  intros Hb H1 H2 H3 Hd k spare' q' e' Hk Hq.
  assert (e = false) as -> by (apply accept_iff in Hd; [tauto|exact Hb]).
  assert (Hs : std_packet hdr body [a; b]) by (unfold std_packet, std_hl, blen in *; repeat split; [exact H1|lia|exact H3]).
  destruct (prefix_partial p p hdr body a b spare spare' p' Hb Hs Hd k q' e' Hk Hq) as (X1 & X2 & X3).
  split; [exact X1|]. split; [exact X2|]. apply X3. reflexivity.
Qed.

Lemma prefix_exact p hdr body a b spare p' e :
  bytes_ok (hdr ++ body ++ [a; b]) = true ->
  length hdr = frame_pos hdr -> decl_hl hdr = std_hl hdr -> decl_fdl hdr = blen body ->
  pkg_decode p (mkSlice (hdr ++ body ++ [a; b]) spare) = (p', DRet 0 e) ->
  forall k spare', (k < length (hdr ++ body ++ [a; b]))%nat ->
  ((exists q' e', pkg_decode p (mkSlice (firstn k (hdr ++ body ++ [a; b])) spare') = (q', DRet 0 e')) <->
   b = 0 /\ S k = length (hdr ++ body ++ [a; b])).
Proof.
  intros Hb H1 H2 H3 Hd k spare' Hk. split.
  - intros (q' & e' & Hq). destruct (prefix_cases p hdr body a b spare p' e Hb H1 H2 H3 Hd k spare' q' e' Hk Hq) as (X1 & X2 & _).
    split; [exact X1|]. apply (f_equal (@length N)) in X2. rewrite firstn_length_le in X2 by lia. rewrite !app_length in *. cbn [length] in *. lia.
  - intros [-> Hkk].
    assert (firstn k (hdr ++ body ++ [a; 0]) = hdr ++ body ++ [a]) as ->.
    { change [a; 0] with ([a] ++ [0]) in *. rewrite !app_assoc in *. rewrite app_length in Hkk. cbn [length] in Hkk.
      rewrite firstn_app. rewrite firstn_all2 by lia. replace (k - _)%nat with 0%nat by lia. cbn [firstn]. apply app_nil_r. }
    assert (Hs : forall r, std_packet hdr body r) by (intros r; unfold std_packet, std_hl, blen in *; repeat split; [exact H1|lia|exact H3]).
    assert (bytes_ok (hdr ++ body ++ [a]) = true) as Hb'.
    { rewrite !bytes_ok_app in *. cbn [bytes_ok forallb] in *. rewrite !andb_true_iff in *. tauto. }
    apply accept_iff in Hd; [|exact Hb]. destruct Hd as (_ & f & Ha & _). apply std_accept in Ha; [|apply Hs].
    eexists _, false. apply accept_iff; [exact Hb'|]. split; [reflexivity|]. exists f. split; [|reflexivity].
    apply std_accept; [apply Hs|]. destruct Ha as (A1 & A2 & A3 & A4 & A5 & A6). split; [discriminate|]. repeat (split; [assumption|]).
    rewrite <- A6. reflexivity.
Qed.

Lemma nesting_bounded d b : (length b < d)%nat -> sds_decode_d d b = sds_decode b /\ sds_decode b <> Fuel.
Proof.
  intros H. split; [apply sds_decode_depth; exact H|].
  pose proof (sds_decode_returns b) as R. destruct (sds_decode b); cbn in R; try discriminate. contradiction.
Qed.
Lemma returns_cases {A} (r : res A) : returns r -> r = Err \/ exists a, r = Ok a.
Proof. destruct r; cbn; intros H; eauto; contradiction. Qed.
Lemma record_decoders_return b :
  (sds_decode b = Err \/ exists l, sds_decode b = Ok l) /\
  (rds_decode b = Err \/ exists l, rds_decode b = Ok l) /\
  (ptr_decode b = Err \/ exists l, ptr_decode b = Ok l) /\
  (srresp_decode b = Err \/ exists l, srresp_decode b = Ok l).
Proof.
  repeat split; apply returns_cases.
  - apply sds_decode_returns. - apply rds_decode_returns. - apply ptr_decode_returns. - apply srresp_decode_returns.
Qed.
Lemma subrecord_decoders_return t len b :
  sub_decode (depth_for b) t len b = Err \/ exists d, sub_decode (depth_for b) t len b = Ok d.
Proof.
  apply returns_cases. apply (sub_decode_returns _ (length b)); [unfold depth_for; lia|apply supp_length].
Qed.
End Glue.
