(** * ProtoFacts2: what the stored message says, and that it is the only one. *)
From Coq Require Import Lia ZifyBool ZifyN ZifyNat.
From Verif Require Import GoBase Proto Spec_Proto BaseFacts ProtoFacts.

(** ** Values *)
Lemma to_int32_iff z n : to_int32 n = z <-> int32_of z n.
Proof.
  unfold to_int32, int32_of. assert (Hm : n mod 4294967296 < 4294967296) by (apply N.mod_lt; lia).
  change (2 ^ 32)%Z with 4294967296%Z. change (2 ^ 31)%Z with 2147483648%Z.
  assert (Hz : (Z.of_N n mod 4294967296 = Z.of_N (n mod 4294967296))%Z) by (rewrite N2Z.inj_mod; reflexivity).
  rewrite Hz. set (m := n mod 4294967296) in *. clearbody m. clear Hz n. split.
  - intros <-. destruct (m <? 2147483648) eqn:E; (split; [lia|]).
    + rewrite Z.mod_small; lia.
    + apply (Z.mod_unique _ _ (-1)%Z); lia.
  - intros [Hr He]. destruct (Z.ltb_spec z 0).
    + assert (z mod 4294967296 = z + 4294967296)%Z as Hz by (symmetry; apply (Z.mod_unique _ _ (-1)%Z); lia).
      rewrite Hz in He. assert (m <? 2147483648 = false) as -> by lia. lia.
    + rewrite (Z.mod_small z) in He by lia. assert (m <? 2147483648 = true) as -> by lia. lia.
Qed.
Lemma unzigzag_iff v z : unzigzag v = z <-> means PSint (WVarint v) (VInt z).
Proof.
  unfold unzigzag. assert (Hm : v mod 4294967296 < 4294967296) by (apply N.mod_lt; lia).
  assert (Hz : (Z.of_N v mod 2 ^ 32 = Z.of_N (v mod 4294967296))%Z) by (change (2 ^ 32)%Z with 4294967296%Z; rewrite N2Z.inj_mod; reflexivity).
  set (m := v mod 4294967296) in *. clearbody m.
  pose proof (N.div_mod m 2 ltac:(lia)) as Hd. assert (Hr : m mod 2 < 2) by (apply N.mod_lt; lia).
  split.
  - intros <-. destruct (m mod 2 =? 0) eqn:E.
    + apply mn_sint_pos; [change (2 ^ 31)%Z with 2147483648%Z; lia|]. rewrite Hz. lia.
    + apply mn_sint_neg; [change (2 ^ 31)%Z with 2147483648%Z; lia|]. rewrite Hz. lia.
  - intros H. inversion H as [| | |? ? Hb He|? ? Hb He| | |]; subst; rewrite Hz in He.
    + assert (m mod 2 =? 0 = true) as -> by lia. lia.
    + assert (m mod 2 =? 0 = false) as -> by lia. lia.
Qed.
Lemma means_iff ty w v : from_wire ty w = Some v <-> means ty w v.
Proof.
  split.
  - intros H. destruct ty, w; try discriminate H; cbn [from_wire] in H; injection H as <-.
    + apply mn_u32; [apply N.mod_lt; lia|reflexivity].
    + destruct (v0 =? 0) eqn:E; cbn [negb]; [apply N.eqb_eq in E; subst; apply mn_false|apply mn_true; lia].
    + apply unzigzag_iff. reflexivity.
    + apply mn_sfix, to_int32_iff. reflexivity.
    + apply mn_float.
    + apply mn_bytes.
  - intros H. destruct H as [v n Hn ->|v Hv| |v z H1 H2|v z H1 H2|b z H|b|s]; cbn [from_wire]; try reflexivity.
    + apply N.eqb_neq in Hv. rewrite Hv. reflexivity.
    + f_equal. f_equal. apply unzigzag_iff. apply mn_sint_pos; assumption.
    + f_equal. f_equal. apply unzigzag_iff. apply mn_sint_neg; assumption.
    + f_equal. f_equal. apply to_int32_iff, H.
Qed.
Lemma means_none ty w : from_wire ty w = None <-> forall v, ~ means ty w v.
Proof.
  split.
  - intros H v Hv. apply means_iff in Hv. congruence.
  - intros H. destruct (from_wire ty w) as [v|] eqn:E; [|reflexivity]. apply means_iff in E. exfalso. exact (H v E).
Qed.

(** ** Fields of a stream *)
Definition f_ok (f : wfield) : Prop :=
  1 <= wf_num f < 2 ^ 29 /\ value (wf_num f) (wf_val f) (wf_raw f) /\ bytes_ok (wf_raw f) = true.
Lemma stream_f_ok l b : stream l b -> bytes_ok b = true -> Forall f_ok l.
Proof.
  induction 1 as [|num w t v l b Hn Ht Hv Hs IH]; intros Hb; [constructor|].
  apply ok_app in Hb. destruct Hb as [_ Hb]. apply ok_app in Hb. destruct Hb as [Hb1 Hb2].
  constructor; [repeat split; cbn; try apply Hn; assumption|apply IH, Hb2].
Qed.
Lemma f_ok_bytes f s : f_ok f -> wf_val f = WBytes s -> bytes_ok s = true /\ blen s < 2 ^ 64.
Proof.
  intros (_ & Hv & Hb) E. rewrite E in Hv. destruct Hv as [Hv|[Hv _]]; [|discriminate]. inversion Hv as [| |s' n Hn Es Er|]; subst s'.
  rewrite <- Er in Hb. apply ok_app in Hb. split; [apply Hb|apply Hn].
Qed.
Lemma f_ok_fix f s : f_ok f -> wf_val f = WFix32 s -> bytes_ok s = true /\ length s = 4%nat.
Proof.
  intros (_ & Hv & Hb) E. rewrite E in Hv. destruct Hv as [Hv|[Hv _]]; [|discriminate]. inversion Hv; subst.
  split; [|assumption]. congruence.
Qed.
Lemma tag_small num wt : 1 <= num < 2 ^ 29 -> wt < 8 -> 8 * num + wt < 2 ^ 64.
Proof. change (2 ^ 29) with 536870912. change (2 ^ 64) with 18446744073709551616. lia. Qed.
Lemma kept_iff f b : f_ok f -> (kept f b <-> b = unknown_bytes f).
Proof.
  intros (Hn & Hv & _). pose proof (tag_small _ _ Hn (value_wt _ _ _ Hv)) as Hsm.
  pose proof (put_varint_varint _ Hsm) as Hput. unfold unknown_bytes, put_tag. split.
  - intros (t & -> & Ht & Hs). f_equal. apply shortest_unique; [apply Ht|lia|eapply N.lt_trans; [exact Hsm|reflexivity]|].
    pose proof (Hs _ Hput). pose proof (put_varint_shortest _ _ Ht). lia.
  - intros ->. eexists. split; [reflexivity|]. split; [exact Hput|]. intros t' Ht'. apply put_varint_shortest, Ht'.
Qed.

(** ** Gathering *)
Lemma gathers_nil {A} (R : wfield -> list A -> Prop) : gathers R [] [].
Proof. exists []. split; [constructor|reflexivity]. Qed.
Lemma gathers_snoc {A} (R : wfield -> list A -> Prop) l f vs v : gathers R l vs -> R f v -> gathers R (l ++ [f]) (vs ++ v).
Proof.
  intros (vss & H & ->) Hf. exists (vss ++ [v]). split; [apply Forall2_app; [exact H|constructor; [exact Hf|constructor]]|].
  rewrite concat_app. cbn [concat]. rewrite app_nil_r. reflexivity.
Qed.
Lemma gathers_fun {A} (R : wfield -> list A -> Prop) (P : wfield -> Prop) :
  (forall f a b, P f -> R f a -> R f b -> a = b) ->
  forall l, Forall P l -> forall a b, gathers R l a -> gathers R l b -> a = b.
Proof.
  intros HR l HP a b (va & Ha & ->) (vb & Hb & ->). f_equal. revert va vb Ha Hb.
  induction HP as [|f l Hf HP IH]; intros va vb Ha Hb; inversion Ha; inversion Hb; subst; [reflexivity|].
  f_equal; [apply (HR f); assumption|apply IH; assumption].
Qed.
Lemma gathers_in {A} (R : wfield -> list A -> Prop) l vs : gathers R l vs -> forall f, In f l -> exists v, R f v.
Proof.
  intros (vss & H & _). induction H as [|f v l vss Hf H IH]; intros g Hg; [contradiction|]. destruct Hg as [<-|Hg]; [exists v; exact Hf|exact (IH g Hg)].
Qed.
Lemma last_snoc {A} (vs v : list A) : last (map Some (vs ++ v)) None = last (map Some v) (last (map Some vs) None).
Proof.
  rewrite map_app. induction v as [|x v IH] using rev_ind; [cbn [map last]; rewrite app_nil_r; reflexivity|].
  rewrite map_app. cbn [map]. rewrite app_assoc, !last_last. reflexivity.
Qed.
Lemma last_one_fun {A} (R : wfield -> list A -> Prop) (P : wfield -> Prop) :
  (forall f a b, P f -> R f a -> R f b -> a = b) ->
  forall l, Forall P l -> forall a b, last_one R l a -> last_one R l b -> a = b.
Proof. intros HR l HP a b (va & Ha & ->) (vb & Hb & ->). rewrite (gathers_fun R P HR l HP va vb Ha Hb). reflexivity. Qed.

(** ** Sensor messages *)
Lemma nth_set_at_eq {A} i (x : A) l d : (i < length l)%nat -> nth i (set_at i x l) d = x.
Proof. revert i. induction l as [|y l IH]; intros [|i] H; cbn in *; try lia; [reflexivity|apply IH; lia]. Qed.
Lemma nth_set_at_ne {A} i j (x : A) l d : i <> j -> nth j (set_at i x l) d = nth j l d.
Proof. revert i j. induction l as [|y l IH]; intros [|i] [|j] H; cbn; try reflexivity; try congruence. apply IH. congruence. Qed.
Lemma length_set_at {A} i (x : A) l : length (set_at i x l) = length l.
Proof. revert i. induction l as [|y l IH]; intros [|i]; cbn; [reflexivity..|]. rewrite IH. reflexivity. Qed.
Lemma num_index num i : 1 <= num -> (N.to_nat (num - 1) = i <-> num = N.of_nat i + 1).
Proof. lia. Qed.
Lemma leaf_step sch m f : f_ok f -> length (lf_vals m) = length sch -> let m' := leaf_store sch m f in
  length (lf_vals m') = length sch /\
  (forall i ty, nth_error sch i = Some ty -> exists vs, contributes (N.of_nat i + 1) ty f vs /\
     nth i (lf_vals m') None = last (map Some vs) (nth i (lf_vals m) None)) /\
  exists b, unknown (leaf_known sch) f b /\ lf_unk m' = lf_unk m ++ b.
Proof.
  intros Hf Hl. cbv zeta. pose proof Hf as ((Hn & _) & _ & _). unfold leaf_store.
  destruct (nth_error sch (N.to_nat (wf_num f - 1))) as [ty0|] eqn:Hty; [destruct (from_wire ty0 (wf_val f)) as [v|] eqn:Hw|].
  - cbn [lf_vals lf_unk]. split; [rewrite length_set_at; exact Hl|]. split.
    + intros i ty Hi. destruct (Nat.eq_dec (N.to_nat (wf_num f - 1)) i) as [E|E].
      * rewrite E in *. rewrite Hty in Hi. injection Hi as <-. exists [v]. split.
        -- left. split; [apply num_index; [exact Hn|exact E]|]. exists v. split; [apply means_iff, Hw|reflexivity].
        -- cbn. apply nth_set_at_eq. rewrite Hl. apply nth_error_Some. congruence.
      * exists []. split; [right; split; [left; intros C; apply E, num_index; assumption|reflexivity]|]. cbn. apply nth_set_at_ne, E.
    + exists []. split; [|rewrite app_nil_r; reflexivity]. left. split; [|reflexivity].
      exists (N.to_nat (wf_num f - 1)), ty0, v. split; [exact Hty|]. split; [apply num_index; [exact Hn|reflexivity]|apply means_iff, Hw].
  - cbn [lf_vals lf_unk]. split; [exact Hl|]. split.
    + intros i ty Hi. exists []. split; [|reflexivity]. right. split; [|reflexivity].
      destruct (Nat.eq_dec (N.to_nat (wf_num f - 1)) i) as [E|E]; [|left; intros C; apply E, num_index; assumption].
      right. rewrite E in Hty. rewrite Hty in Hi. injection Hi as <-. apply means_none, Hw.
    + exists (unknown_bytes f). split; [|reflexivity]. right. split; [|apply kept_iff; [exact Hf|reflexivity]].
      intros (i & ty & v & Hi & Hni & Hm). apply num_index in Hni; [|exact Hn]. rewrite Hni, Hi in Hty. injection Hty as <-.
      apply means_none with (v := v) in Hw. exact (Hw Hm).
  - cbn [lf_vals lf_unk]. split; [exact Hl|]. split.
    + intros i ty Hi. exists []. split; [|reflexivity]. right. split; [|reflexivity].
      left. intros C. apply num_index in C; [|exact Hn]. rewrite C in Hty. congruence.
    + exists (unknown_bytes f). split; [|reflexivity]. right. split; [|apply kept_iff; [exact Hf|reflexivity]].
      intros (i & ty & v & Hi & Hni & Hm). apply num_index in Hni; [|exact Hn]. rewrite Hni, Hi in Hty. discriminate.
Qed.
Lemma nth_map_none {A} (l : list A) i : nth i (map (fun _ => @None pval) l) None = None.
Proof. revert i. induction l as [|x l IH]; intros [|i]; cbn; try reflexivity. apply IH. Qed.
Lemma leaf_fold_says sch l : Forall f_ok l -> leaf_says sch l (fold_left (leaf_store sch) l (leaf_empty sch)).
Proof.
  induction l as [|f l IH] using rev_ind; intros Hl.
  - cbn [fold_left]. split; [apply map_length|]. split.
    + intros i ty _. exists []. split; [apply gathers_nil|]. cbn [leaf_empty lf_vals map last]. apply nth_map_none.
    + exists []. split; [apply gathers_nil|reflexivity].
  - apply Forall_app in Hl. destruct Hl as [Hl Hf]. inversion Hf as [|? ? Hf' _]; subst. rewrite fold_left_app. cbn [fold_left].
    destruct (IH Hl) as (H1 & H2 & bs & H3 & H4). destruct (leaf_step sch _ f Hf' H1) as (G1 & G2 & b & G3 & G4).
    split; [exact G1|]. split.
    + intros i ty Hi. destruct (H2 i ty Hi) as (vs & Hg & Hlast). destruct (G2 i ty Hi) as (v & Hc & Hn).
      exists (vs ++ v). split; [apply gathers_snoc; assumption|]. rewrite last_snoc, Hn, Hlast. reflexivity.
    + exists (bs ++ [b]). split; [apply gathers_snoc; [exact H3|exists b; split; [reflexivity|exact G3]]|].
      rewrite G4, H4, concat_app. cbn [concat]. rewrite app_nil_r. reflexivity.
Qed.
Lemma means_fun ty w a b : means ty w a -> means ty w b -> a = b.
Proof. intros Ha Hb. apply means_iff in Ha, Hb. congruence. Qed.
Lemma contributes_fun num ty f a b : f_ok f -> contributes num ty f a -> contributes num ty f b -> a = b.
Proof.
  intros _ [(Ha & v & Hv & ->)|([Ha|Ha] & ->)] [(Hb & v' & Hv' & ->)|([Hb|Hb] & ->)]; try congruence.
  - rewrite (means_fun _ _ _ _ Hv Hv'). reflexivity.
  - exfalso. exact (Hb v Hv).
  - exfalso. exact (Ha v' Hv').
Qed.
Lemma unknown_fun known f a b : f_ok f -> unknown known f a -> unknown known f b -> a = b.
Proof.
  intros Hf [(Ka & ->)|(Ka & Ha)] [(Kb & ->)|(Kb & Hb)]; try contradiction; [reflexivity|].
  apply kept_iff in Ha, Hb; [congruence|exact Hf..].
Qed.
Lemma unknown1_fun known f (a b : list bytes) : f_ok f ->
  (exists x, a = [x] /\ unknown known f x) -> (exists x, b = [x] /\ unknown known f x) -> a = b.
Proof. intros Hf (x & -> & Hx) (y & -> & Hy). rewrite (unknown_fun known f x y Hf Hx Hy). reflexivity. Qed.
Lemma leaf_says_fun sch l x y : Forall f_ok l -> leaf_says sch l x -> leaf_says sch l y -> x = y.
Proof.
  intros Hl (X1 & X2 & bx & X3 & X4) (Y1 & Y2 & by_ & Y3 & Y4). destruct x as [vx ux], y as [vy uy]. cbn [lf_vals lf_unk] in *. f_equal.
  - apply nth_ext with (d := None) (d' := None); [congruence|]. intros i Hi. rewrite X1 in Hi.
    destruct (nth_error sch i) as [ty|] eqn:Hty; [|apply nth_error_None in Hty; lia].
    exact (last_one_fun (contributes (N.of_nat i + 1) ty) f_ok (contributes_fun _ _) l Hl _ _ (X2 i ty Hty) (Y2 i ty Hty)).
  - rewrite X4, Y4. f_equal. apply (gathers_fun _ f_ok (fun f a b H => unknown1_fun (leaf_known sch) f a b H) l Hl _ _ X3 Y3).
Qed.
Theorem leaf_unmarshal_iff sch b x : bytes_ok b = true -> (leaf_unmarshal sch b = Some x <-> leaf_on_wire sch b x).
Proof.
  intros Hb. unfold leaf_unmarshal, leaf_on_wire. split.
  - destruct (read_fields (length b) b) as [l|] eqn:Hr; [|discriminate]. intros H. injection H as <-.
    apply (read_fields_iff b l Hb) in Hr. exists l. split; [exact Hr|apply leaf_fold_says, (stream_f_ok l b Hr Hb)].
  - intros (l & Hs & Hsay). pose proof (stream_f_ok l b Hs Hb) as Hl. rewrite (proj2 (read_fields_iff b l Hb) Hs). f_equal.
    apply (leaf_says_fun sch l); [exact Hl|apply leaf_fold_says, Hl|exact Hsay].
Qed.

(** ** StorageRecord *)
Lemma read_packed_sound fuel : forall b l, bytes_ok b = true -> read_packed fuel b = Some l -> packed b l.
Proof.
  induction fuel as [|fuel IH]; intros b l Hb H; destruct b as [|x b]; cbn [read_packed] in H; try discriminate;
    try (injection H as <-; apply pk_nil).
  destruct (read_varint 10 (x :: b)) as [[v r]|] eqn:Hr; [|discriminate].
  destruct (read10_sound _ v r Hb Hr) as (p & E & Hp). rewrite E in Hb |- *. apply ok_app in Hb. destruct Hb as [_ Hb].
  destruct (read_packed fuel r) as [l'|] eqn:Hl; [|discriminate]. injection H as <-.
  apply pk_one with (v := v); [exact Hp|apply to_int32_iff; reflexivity|exact (IH _ _ Hb Hl)].
Qed.
Lemma read_packed_complete b l : packed b l -> forall fuel, (length b <= fuel)%nat -> read_packed fuel b = Some l.
Proof.
  induction 1 as [|v t z b l Hv Hz Hp IH]; intros fuel Hf; [destruct fuel; reflexivity|].
  pose proof (varint_nonempty _ _ Hv) as Hl. rewrite app_length in Hf. destruct fuel as [|fuel]; [lia|].
  assert (exists x y, t ++ b = x :: y) as (x & y & E) by (destruct t; [cbn in Hl; lia|eexists _, _; reflexivity]).
  rewrite E. cbn [read_packed]. rewrite <- E, (read10_complete v t b Hv), (IH fuel) by lia. apply to_int32_iff in Hz. rewrite Hz. reflexivity.
Qed.
Lemma read_packed_iff b l : bytes_ok b = true -> (read_packed (length b) b = Some l <-> packed b l).
Proof. intros Hb. split; [apply read_packed_sound, Hb|intros H; apply (read_packed_complete b l H); lia]. Qed.

Definition sr_store' (m : storage_record) (f : wfield) : option storage_record :=
  match wf_val f with
  | WVarint v =>
      if wf_num f =? 1 then Some (mkSR (Some (v mod 4294967296)) (sr_time m) (sr_reasons m) (sr_flags m) (sr_sensors m) (sr_unk m))
      else if wf_num f =? 3 then Some (mkSR (sr_number m) (sr_time m) (sr_reasons m ++ [to_int32 v]) (sr_flags m) (sr_sensors m) (sr_unk m))
      else Some (add_unknown m f)
  | WFix32 b =>
      if wf_num f =? 2 then Some (mkSR (sr_number m) (Some (le_dec b)) (sr_reasons m) (sr_flags m) (sr_sensors m) (sr_unk m))
      else if wf_num f =? 4 then Some (mkSR (sr_number m) (sr_time m) (sr_reasons m) (Some (le_dec b)) (sr_sensors m) (sr_unk m))
      else Some (add_unknown m f)
  | WBytes s =>
      if wf_num f =? 3 then
        match read_packed (length s) s with
        | Some l => Some (mkSR (sr_number m) (sr_time m) (sr_reasons m ++ l) (sr_flags m) (sr_sensors m) (sr_unk m))
        | None => None
        end
      else match (if wf_num f <? 7 then None else nth_error schemas (N.to_nat (wf_num f - 7))) with
           | Some sch =>
               match leaf_unmarshal sch s with
               | Some x => Some (mkSR (sr_number m) (sr_time m) (sr_reasons m) (sr_flags m)
                                      (set_at (N.to_nat (wf_num f - 7)) (nth (N.to_nat (wf_num f - 7)) (sr_sensors m) [] ++ [x]) (sr_sensors m)) (sr_unk m))
               | None => None
               end
           | None => Some (add_unknown m f)
           end
  | _ => Some (add_unknown m f)
  end.
Lemma sr_store_eq m f : sr_store m f = sr_store' m f.
Proof.
  unfold sr_store, sr_store'. destruct f as [num w raw]. cbn [wf_num wf_val].
  destruct w; (destruct num as [|p]; [reflexivity|]; do 3 (destruct p as [p|p|]; try reflexivity)).
Qed.
Lemma schemas_index num sch : (if num <? 7 then None else nth_error schemas (N.to_nat (num - 7))) = Some sch ->
  7 <= num <= 24 /\ nth_error schemas (N.to_nat (num - 7)) = Some sch.
Proof.
  destruct (num <? 7) eqn:E; [discriminate|]. intros H. split; [|exact H].
  assert (N.to_nat (num - 7) < 18)%nat by (change 18%nat with (length schemas); apply nth_error_Some; congruence). lia.
Qed.
Lemma schemas_index_none num : (if num <? 7 then None else nth_error schemas (N.to_nat (num - 7))) = None -> ~ 7 <= num <= 24.
Proof.
  destruct (num <? 7) eqn:E; [lia|]. intros H. apply nth_error_None in H. change (length schemas) with 18%nat in H. lia.
Qed.
Definition step_says (m : storage_record) (f : wfield) (m' : storage_record) : Prop :=
  (exists vs, number f vs /\ sr_number m' = last (map Some vs) (sr_number m)) /\
  (exists vs, fixed 2 f vs /\ sr_time m' = last (map Some vs) (sr_time m)) /\
  (exists vs, fixed 4 f vs /\ sr_flags m' = last (map Some vs) (sr_flags m)) /\
  (exists vs, reasons f vs /\ sr_reasons m' = sr_reasons m ++ vs) /\
  length (sr_sensors m') = 18%nat /\
  (forall i sch, nth_error schemas i = Some sch -> exists xs, sensors (7 + N.of_nat i) sch f xs /\
     nth i (sr_sensors m') [] = nth i (sr_sensors m) [] ++ xs) /\
  exists b, unknown top_known f b /\ sr_unk m' = sr_unk m ++ b.
Ltac absent := exists []; split; [first [right; right; split; [first [left; lia|right; intros; split; congruence]|reflexivity]
  |right; split; [first [left; lia|right; intros; congruence]|reflexivity]]|rewrite ?app_nil_r; reflexivity].
Ltac no_sensor := let i := fresh "i" in let sch := fresh "sch" in let Hi := fresh "Hi" in intros i sch Hi;
  assert (i < 18)%nat by (change 18%nat with (length schemas); apply nth_error_Some; congruence); absent.
Lemma unk_step m f : f_ok f -> length (sr_sensors m) = 18%nat -> ~ top_known f ->
  (forall v, wf_val f = WBytes v -> wf_num f <> 3 /\ ~ 7 <= wf_num f <= 24) -> step_says m f (add_unknown m f).
Proof.
  intros Hf Hl Hk Hb. unfold step_says, add_unknown. cbn [sr_number sr_time sr_flags sr_reasons sr_sensors sr_unk].
  assert (H1 : wf_num f <> 1 \/ forall v, wf_val f <> WVarint v).
  { destruct (N.eq_dec (wf_num f) 1) as [E|E]; [right|left; exact E]. intros v Ev. apply Hk. unfold top_known. rewrite Ev. lia. }
  assert (H2 : forall n, n = 2 \/ n = 4 -> wf_num f <> n \/ forall v, wf_val f <> WFix32 v).
  { intros n Hn. destruct (N.eq_dec (wf_num f) n) as [E|E]; [right|left; exact E]. intros v Ev. apply Hk. unfold top_known. rewrite Ev. lia. }
  repeat split.
  - exists []. split; [right; split; [exact H1|reflexivity]|reflexivity].
  - exists []. split; [right; split; [apply H2; lia|reflexivity]|reflexivity].
  - exists []. split; [right; split; [apply H2; lia|reflexivity]|reflexivity].
  - exists []. split; [right; right; split; [|reflexivity]|rewrite app_nil_r; reflexivity].
    destruct (N.eq_dec (wf_num f) 3) as [E|E]; [right|left; exact E]. intros v s. split; intros Ev.
    + apply Hk. unfold top_known. rewrite Ev. lia.
    + apply Hb in Ev. lia.
  - exact Hl.
  - intros i sch Hi. assert (i < 18)%nat by (change 18%nat with (length schemas); apply nth_error_Some; congruence).
    exists []. split; [right; split; [|reflexivity]|rewrite app_nil_r; reflexivity].
    destruct (N.eq_dec (wf_num f) (7 + N.of_nat i)) as [E|E]; [right|left; exact E]. intros s Ev. apply Hb in Ev. lia.
  - exists (unknown_bytes f). split; [|reflexivity]. right. split; [exact Hk|]. apply kept_iff; [exact Hf|reflexivity].
Qed.
Lemma known_step f b : top_known f -> b = [] -> unknown top_known f b.
Proof. intros H ->. left. split; [exact H|reflexivity]. Qed.
Lemma sr_step m f m' : f_ok f -> length (sr_sensors m) = 18%nat -> sr_store m f = Some m' -> step_says m f m'.
Proof.
  intros Hf Hl H. rewrite sr_store_eq in H. unfold sr_store' in H.
  destruct (wf_val f) as [v|b|s|b|b] eqn:Hv.
  - destruct (wf_num f =? 1) eqn:E1; [|destruct (wf_num f =? 3) eqn:E3].
    + apply N.eqb_eq in E1. injection H as <-. unfold step_says. cbn [sr_number sr_time sr_flags sr_reasons sr_sensors sr_unk].
      split; [|split; [absent|split; [absent|split; [absent|split; [exact Hl|split; [no_sensor|]]]]]].
      * exists [v mod 2 ^ 32]. split; [left; split; [exact E1|exists v; split; [exact Hv|reflexivity]]|reflexivity].
      * exists []. split; [apply known_step; [unfold top_known; rewrite Hv; lia|reflexivity]|rewrite app_nil_r; reflexivity].
    + apply N.eqb_eq in E3. injection H as <-. unfold step_says. cbn [sr_number sr_time sr_flags sr_reasons sr_sensors sr_unk].
      split; [absent|split; [absent|split; [absent|split; [|split; [exact Hl|split; [no_sensor|]]]]]].
      * exists [to_int32 v]. split; [left; split; [exact E3|exists v, (to_int32 v); split; [exact Hv|split; [apply to_int32_iff; reflexivity|reflexivity]]]|reflexivity].
      * exists []. split; [apply known_step; [unfold top_known; rewrite Hv; lia|reflexivity]|rewrite app_nil_r; reflexivity].
    + injection H as <-. apply unk_step; [exact Hf|exact Hl|unfold top_known; rewrite Hv; lia|intros; congruence].
  - injection H as <-. apply unk_step; [exact Hf|exact Hl|unfold top_known; rewrite Hv; tauto|intros; congruence].
  - destruct (f_ok_bytes f s Hf Hv) as [Hs _].
    destruct (wf_num f =? 3) eqn:E3; [|destruct (if wf_num f <? 7 then None else nth_error schemas (N.to_nat (wf_num f - 7))) as [sch|] eqn:Hsch].
    + apply N.eqb_eq in E3. destruct (read_packed (length s) s) as [l|] eqn:Hp; [|discriminate].
      apply (read_packed_iff s l Hs) in Hp.
      injection H as <-. unfold step_says. cbn [sr_number sr_time sr_flags sr_reasons sr_sensors sr_unk].
      split; [absent|split; [absent|split; [absent|split; [|split; [exact Hl|split; [no_sensor|]]]]]].
      * exists l. split; [right; left; split; [exact E3|exists s; split; [exact Hv|exact Hp]]|reflexivity].
      * exists []. split; [apply known_step; [unfold top_known; rewrite Hv; lia|reflexivity]|rewrite app_nil_r; reflexivity].
    + apply schemas_index in Hsch. destruct Hsch as [Hr Hsch]. destruct (leaf_unmarshal sch s) as [x|] eqn:Hx; [|discriminate].
      apply (leaf_unmarshal_iff sch s x Hs) in Hx.
      injection H as <-. unfold step_says. cbn [sr_number sr_time sr_flags sr_reasons sr_sensors sr_unk].
      split; [absent|split; [absent|split; [absent|split; [absent|split; [rewrite length_set_at; exact Hl|split]]]]].
      * intros i sch' Hi. assert (i < 18)%nat by (change 18%nat with (length schemas); apply nth_error_Some; congruence).
        destruct (Nat.eq_dec (N.to_nat (wf_num f - 7)) i) as [E|E].
        -- rewrite E in *. rewrite Hi in Hsch. injection Hsch as ->. exists [x]. split.
           ++ left. split; [lia|]. exists s, x. repeat split; assumption.
           ++ apply nth_set_at_eq. rewrite Hl. assumption.
        -- exists []. split; [right; split; [left; lia|reflexivity]|]. rewrite app_nil_r. apply nth_set_at_ne, E.
      * exists []. split; [apply known_step; [unfold top_known; rewrite Hv; lia|reflexivity]|rewrite app_nil_r; reflexivity].
    + apply schemas_index_none in Hsch. injection H as <-. apply unk_step; [exact Hf|exact Hl|unfold top_known; rewrite Hv; lia|intros; lia].
  - injection H as <-. apply unk_step; [exact Hf|exact Hl|unfold top_known; rewrite Hv; tauto|intros; congruence].
  - destruct (wf_num f =? 2) eqn:E1; [|destruct (wf_num f =? 4) eqn:E3].
    + apply N.eqb_eq in E1. injection H as <-. unfold step_says. cbn [sr_number sr_time sr_flags sr_reasons sr_sensors sr_unk].
      split; [absent|split; [|split; [absent|split; [absent|split; [exact Hl|split; [no_sensor|]]]]]].
      * exists [le_dec b]. split; [left; split; [exact E1|exists b; split; [exact Hv|reflexivity]]|reflexivity].
      * exists []. split; [apply known_step; [unfold top_known; rewrite Hv; lia|reflexivity]|rewrite app_nil_r; reflexivity].
    + apply N.eqb_eq in E3. injection H as <-. unfold step_says. cbn [sr_number sr_time sr_flags sr_reasons sr_sensors sr_unk].
      split; [absent|split; [absent|split; [|split; [absent|split; [exact Hl|split; [no_sensor|]]]]]].
      * exists [le_dec b]. split; [left; split; [exact E3|exists b; split; [exact Hv|reflexivity]]|reflexivity].
      * exists []. split; [apply known_step; [unfold top_known; rewrite Hv; lia|reflexivity]|rewrite app_nil_r; reflexivity].
    + injection H as <-. apply unk_step; [exact Hf|exact Hl|unfold top_known; rewrite Hv; lia|intros; congruence].
Qed.
Lemma sr_store_all_app m l1 l2 : sr_store_all m (l1 ++ l2) = match sr_store_all m l1 with Some m' => sr_store_all m' l2 | None => None end.
Proof. revert m. induction l1 as [|f l1 IH]; intros m; [reflexivity|]. cbn [app sr_store_all]. destruct (sr_store m f); [apply IH|reflexivity]. Qed.
Lemma sr_store_all_says l : forall m, Forall f_ok l -> sr_store_all sr_empty l = Some m -> record_says l m.
Proof.
  induction l as [|f l IH] using rev_ind; intros m Hl H.
  - injection H as <-. unfold record_says.
    repeat split; try (exists []; split; [apply gathers_nil|reflexivity]).
    + apply gathers_nil.
    + intros i sch _. assert (nth i (sr_sensors sr_empty) [] = []) as ->; [|apply gathers_nil].
      do 18 (destruct i as [|i]; [reflexivity|]). destruct i; reflexivity.
  - apply Forall_app in Hl. destruct Hl as [Hl Hf]. inversion Hf as [|? ? Hf' _]; subst. rewrite sr_store_all_app in H.
    destruct (sr_store_all sr_empty l) as [m1|] eqn:Hm1; [|discriminate]. cbn [sr_store_all] in H.
    destruct (sr_store m1 f) as [m2|] eqn:Hm2; [|discriminate]. injection H as <-.
    destruct (IH m1 Hl eq_refl) as ((v1 & A1 & B1) & (v2 & A2 & B2) & (v3 & A3 & B3) & A4 & A5 & A6 & bs & A7 & B7).
    destruct (sr_step m1 f m2 Hf' A5 Hm2) as ((w1 & C1 & D1) & (w2 & C2 & D2) & (w3 & C3 & D3) & (w4 & C4 & D4) & C5 & C6 & b & C7 & D7).
    split; [exists (v1 ++ w1); split; [apply gathers_snoc; assumption|rewrite last_snoc, D1, B1; reflexivity]|].
    split; [exists (v2 ++ w2); split; [apply gathers_snoc; assumption|rewrite last_snoc, D2, B2; reflexivity]|].
    split; [exists (v3 ++ w3); split; [apply gathers_snoc; assumption|rewrite last_snoc, D3, B3; reflexivity]|].
    split; [rewrite D4; apply gathers_snoc; assumption|]. split; [exact C5|]. split.
    + intros i sch Hi. destruct (C6 i sch Hi) as (xs & Hx & ->). apply gathers_snoc; [apply A6, Hi|exact Hx].
    + exists (bs ++ [b]). split; [apply gathers_snoc; [exact A7|exists b; split; [reflexivity|exact C7]]|].
      rewrite D7, B7, concat_app. cbn [concat]. rewrite app_nil_r. reflexivity.
Qed.

(** the pieces are functional *)
Lemma number_fun f a b : f_ok f -> number f a -> number f b -> a = b.
Proof. intros _ [(A & x & X & ->)|([A|A] & ->)] [(B & y & Y & ->)|([B|B] & ->)]; congruence. Qed.
Lemma fixed_fun n f a b : f_ok f -> fixed n f a -> fixed n f b -> a = b.
Proof. intros _ [(A & x & X & ->)|([A|A] & ->)] [(B & y & Y & ->)|([B|B] & ->)]; congruence. Qed.
Lemma reasons_fun f a b : f_ok f -> reasons f a -> reasons f b -> a = b.
Proof.
  intros Hf [(A & v & z & X & Z & ->)|[(A & s & X & P)|([A|A] & ->)]] [(B & v' & z' & Y & Z' & ->)|[(B & s' & Y & P')|([B|B] & ->)]];
    try congruence; try (rewrite ?A, ?B in *; lia);
    try (exfalso; match goal with H : forall v s, _ /\ _, E : wf_val f = _ |- _ => first [exact (proj1 (H _ []) E)|exact (proj2 (H 0 _) E)] end).
  - assert (v = v') as <- by congruence. apply to_int32_iff in Z, Z'. congruence.
  - assert (s = s') as <- by congruence. destruct (f_ok_bytes f s Hf X) as [Hs _].
    apply (read_packed_iff s a Hs) in P. apply (read_packed_iff s b Hs) in P'. congruence.
Qed.
Lemma sensors_fun n sch f a b : f_ok f -> sensors n sch f a -> sensors n sch f b -> a = b.
Proof.
  intros Hf [(A & s & x & X & L & ->)|([A|A] & ->)] [(B & s' & y & Y & L' & ->)|([B|B] & ->)]; try congruence.
  assert (s = s') as <- by congruence. destruct (f_ok_bytes f s Hf X) as [Hs _].
  apply (leaf_unmarshal_iff sch s x Hs) in L. apply (leaf_unmarshal_iff sch s y Hs) in L'. congruence.
Qed.
Lemma record_says_fun l m m' : Forall f_ok l -> record_says l m -> record_says l m' -> m = m'.
Proof.
  intros Hl (A1 & A2 & A3 & A4 & A5 & A6 & ba & A7 & A8) (B1 & B2 & B3 & B4 & B5 & B6 & bb & B7 & B8).
  destruct m as [n t r f s u], m' as [n' t' r' f' s' u']. cbn [sr_number sr_time sr_flags sr_reasons sr_sensors sr_unk] in *.
  f_equal.
  - exact (last_one_fun number f_ok number_fun l Hl _ _ A1 B1).
  - exact (last_one_fun (fixed 2) f_ok (fixed_fun 2) l Hl _ _ A2 B2).
  - exact (gathers_fun reasons f_ok reasons_fun l Hl _ _ A4 B4).
  - exact (last_one_fun (fixed 4) f_ok (fixed_fun 4) l Hl _ _ A3 B3).
  - apply nth_ext with (d := []) (d' := []); [congruence|]. intros i Hi. rewrite A5 in Hi.
    destruct (nth_error schemas i) as [sch|] eqn:Hs; [|apply nth_error_None in Hs; change (length schemas) with 18%nat in Hs; lia].
    exact (gathers_fun _ f_ok (sensors_fun _ _) l Hl _ _ (A6 i sch Hs) (B6 i sch Hs)).
  - rewrite A8, B8. f_equal. exact (gathers_fun _ f_ok (fun f a b H => unknown1_fun top_known f a b H) l Hl _ _ A7 B7).
Qed.
Lemma sr_store_total m f : f_ok f -> (exists rs, reasons f rs) ->
  (forall i sch, nth_error schemas i = Some sch -> exists xs, sensors (7 + N.of_nat i) sch f xs) -> exists m', sr_store m f = Some m'.
Proof.
  intros Hf (rs & Hr) Hs. rewrite sr_store_eq. unfold sr_store'. destruct (wf_val f) as [v|b|s|b|b] eqn:Hv.
  - destruct (wf_num f =? 1); [eexists; reflexivity|]. destruct (wf_num f =? 3); eexists; reflexivity.
  - eexists; reflexivity.
  - destruct (f_ok_bytes f s Hf Hv) as [Hb _].
    destruct (wf_num f =? 3) eqn:E3; [|destruct (if wf_num f <? 7 then None else nth_error schemas (N.to_nat (wf_num f - 7))) as [sch|] eqn:Hsch].
    + apply N.eqb_eq in E3. destruct Hr as [(_ & v & z & X & _)|[(_ & s' & X & P)|([X|X] & _)]]; try congruence.
      * assert (s' = s) as -> by congruence. apply (read_packed_iff s rs Hb) in P. rewrite P. eexists; reflexivity.
      * exfalso. exact (proj2 (X 0 s) Hv).
    + apply schemas_index in Hsch. destruct Hsch as [Hrange Hsch]. destruct (Hs _ _ Hsch) as (xs & [(_ & s' & x & X & L & _)|([X|X] & _)]).
      * assert (s' = s) as -> by congruence. apply (leaf_unmarshal_iff sch s x Hb) in L. rewrite L. eexists; reflexivity.
      * exfalso. apply X. lia.
      * exfalso. exact (X s Hv).
    + eexists; reflexivity.
  - eexists; reflexivity.
  - destruct (wf_num f =? 2); [eexists; reflexivity|]. destruct (wf_num f =? 4); eexists; reflexivity.
Qed.
Lemma sr_store_all_total l : Forall f_ok l ->
  (forall f, In f l -> (exists rs, reasons f rs) /\ forall i sch, nth_error schemas i = Some sch -> exists xs, sensors (7 + N.of_nat i) sch f xs) ->
  forall m, exists m', sr_store_all m l = Some m'.
Proof.
  induction 1 as [|f l Hf Hl IH]; intros H m; [exists m; reflexivity|]. cbn [sr_store_all].
  destruct (H f (or_introl eq_refl)) as [H1 H2]. destruct (sr_store_total m f Hf H1 H2) as (m' & ->). apply IH.
  intros g Hg. apply H. right. exact Hg.
Qed.
Theorem sr_store_all_iff l m : Forall f_ok l -> (sr_store_all sr_empty l = Some m <-> record_says l m).
Proof.
  intros Hl. split; [apply sr_store_all_says, Hl|]. intros H.
  destruct (sr_store_all_total l Hl) with (m := sr_empty) as (m' & Hm').
  - intros f Hf. destruct H as (_ & _ & _ & A4 & _ & A6 & _). split; [exact (gathers_in _ _ _ A4 f Hf)|].
    intros i sch Hi. exact (gathers_in _ _ _ (A6 i sch Hi) f Hf).
  - rewrite Hm'. f_equal. apply (record_says_fun l); [exact Hl|apply sr_store_all_says; assumption|exact H].
Qed.
Theorem sr_unmarshal_iff b m : bytes_ok b = true ->
  (sr_unmarshal b = Some m <->
   (exists l, stream l b /\ record_says l m) /\ sr_number m <> None /\ sr_time m <> None /\ sr_flags m <> None).
Proof.
  intros Hb. unfold sr_unmarshal. split.
  - destruct (read_fields (length b) b) as [l|] eqn:Hr; [|discriminate]. apply (read_fields_iff b l Hb) in Hr.
    destruct (sr_store_all sr_empty l) as [m'|] eqn:Hm; [|discriminate]. destruct (initialized m') eqn:Hi; [|discriminate].
    intros H. injection H as <-. apply (sr_store_all_iff l m' (stream_f_ok l b Hr Hb)) in Hm.
    split; [exists l; split; assumption|]. unfold initialized in Hi.
    destruct (sr_number m'), (sr_time m'), (sr_flags m'); cbn in Hi; try discriminate. repeat split; discriminate.
  - intros ((l & Hs & Hm) & H1 & H2 & H3). rewrite (proj2 (read_fields_iff b l Hb) Hs).
    rewrite (proj2 (sr_store_all_iff l m (stream_f_ok l b Hs Hb)) Hm). unfold initialized.
    destruct (sr_number m), (sr_time m), (sr_flags m); try congruence. reflexivity.
Qed.
