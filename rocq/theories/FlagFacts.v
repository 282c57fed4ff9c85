(** * FlagFacts: which flag strings arrive. *)
From Verif Require Import GoBase Crc Float64 SubRecords Records Package.
From Verif Require Import Spec_Bits Spec_Wf Spec_Rec Spec_Pkg Spec_Flags BaseFacts SubFacts RecFacts PkgFacts PkgFacts2 PkgFacts3.
From Coq Require Import Lia ZifyBool ZifyN ZifyNat.

Section FlagFacts.
Context {E : go_env}.

Lemma shown_fmt v : v < 256 -> shown v = fmt_b 8 v.
Proof.
  intros H. assert (str_eqb (shown v) (fmt_b 8 v) = true) as Hb.
  { revert v H. apply byte_sweep. vm_compute. reflexivity. }
  apply str_eqb_spec. exact Hb.
Qed.

Lemma parse_from_spec max s : forall acc v, acc <= max ->
  (parse_bin_from max acc s = (v, true) <->
   Forall (fun c => c = 48 \/ c = 49) s /\ v = fold_left (fun a c => 2 * a + (c - 48)) s acc /\ v <= max).
Proof.
  induction s as [|c s IH]; intros acc v Ha; cbn [parse_bin_from fold_left].
  - split; [intros H; injection H as <-; split; [constructor|]; auto|]. intros (_ & -> & _). reflexivity.
  - assert (Hmono : forall s a, a <= fold_left (fun a c => 2 * a + (c - 48)) s a).
    { clear. induction s as [|c s IH]; intros a; cbn [fold_left]; [lia|]. specialize (IH (2 * a + (c - 48))). lia. }
    destruct ((c =? ch0) || (c =? ch1)) eqn:Hc.
    + assert (Hcc : c = 48 \/ c = 49) by (unfold ch0, ch1 in Hc; lia). change ch0 with 48.
      destruct (N.ltb_spec max (2 * acc + (c - 48))) as [Hm|Hm].
      * split; [discriminate|]. intros (_ & -> & Hv). specialize (Hmono s (2 * acc + (c - 48))). lia.
      * rewrite IH by exact Hm. split; intros (H1 & H2); (split; [|exact H2]).
        -- constructor; assumption.
        -- inversion H1; assumption.
    + split; [discriminate|]. intros (H1 & _). inversion H1 as [|? ? Hcc]; subst. unfold ch0, ch1 in Hc. lia.
Qed.

Lemma parse8_iff s v : parse8 s = Ok v <-> binary_byte s /\ v = bin_val s.
Proof.
  unfold parse8, parse_uint, binary_byte, bin_val. destruct s as [|c s]; [split; [discriminate|intros [[[] _] _]; reflexivity]|].
  destruct (parse_bin_from 255 0 (c :: s)) as [w ok] eqn:Hp. split.
  - destruct ok; [|discriminate]. intros H. apply Ok_inj in H. subst w. apply parse_from_spec in Hp; [|lia].
    destruct Hp as (H1 & H2 & H3). split; [split; [discriminate|]; split; [exact H1|]; rewrite <- H2; lia|exact H2].
  - intros ((_ & H1 & H2) & ->).
    assert (parse_bin_from 255 0 (c :: s) = (fold_left (fun a c => 2 * a + (c - 48)) (c :: s) 0, true)) as Hq.
    { apply parse_from_spec; [lia|]. split; [exact H1|]. split; [reflexivity|]. lia. }
    rewrite Hq in Hp. injection Hp as <- <-. reflexivity.
Qed.
Lemma parse8_returns s : parse8 s = Err \/ exists v, parse8 s = Ok v.
Proof. unfold parse8. destruct (parse_uint 255 s) as [v [|]]; [right; exists v; reflexivity|left; reflexivity]. Qed.
Lemma parse8_err s : parse8 s = Err <-> ~ binary_byte s.
Proof.
  split.
  - intros H Hb. assert (parse8 s = Ok (bin_val s)) by (apply parse8_iff; auto). congruence.
  - intros H. destruct (parse8_returns s) as [H1|[v H1]]; [exact H1|]. apply parse8_iff in H1. tauto.
Qed.
Lemma parse8_lt s v : parse8 s = Ok v -> v < 256.
Proof. intros H. apply parse8_iff in H. destruct H as ((_ & _ & H) & ->). exact H. Qed.

Fixpoint total (ws : list nat) : nat := match ws with [] => 0 | w :: ws' => w + total ws' end.
Lemma cut_concat ws ss : documented_widths ws ss -> cut ws (concat ss) = ss.
Proof.
  intros H. induction H as [|w s ws ss Hw _ IH]; [reflexivity|]. cbn [cut concat].
  apply bits_ok_length in Hw. rewrite firstn_exact, skipn_exact by exact Hw. rewrite IH. reflexivity.
Qed.
Lemma concat_bits ws ss : documented_widths ws ss -> bits_ok (total ws) (concat ss) = true.
Proof. intros H. induction H as [|w s ws ss Hw _ IH]; [reflexivity|]. cbn [total concat]. apply bits_ok_app; assumption. Qed.
Lemma bits_ok_first n s w : bits_ok n s = true -> (w <= n)%nat -> bits_ok w (firstn w s) = true /\ bits_ok (n - w) (skipn w s) = true.
Proof.
  intros H Hw. pose proof (bits_ok_length _ _ H) as Hl. apply bits_ok_forall in H. unfold bits_ok.
  rewrite <- (firstn_skipn w s) in H. rewrite forallb_app in H. apply andb_prop in H. destruct H as [H1 H2].
  rewrite H1, H2, firstn_length, skipn_length, !andb_true_r. split; apply Nat.eqb_eq; lia.
Qed.
Lemma cut_documented ws : forall s, bits_ok (total ws) s = true -> documented_widths ws (cut ws s).
Proof.
  induction ws as [|w ws IH]; intros s H; [constructor|]. cbn [total cut] in *.
  destruct (bits_ok_first _ _ w H ltac:(lia)) as [H1 H2]. constructor; [exact H1|]. apply IH.
  replace (w + total ws - w)%nat with (total ws) in H2 by lia. exact H2.
Qed.

(** The flag byte [v] written for [ss] shows them exactly when they have the
    documented form. *)
Lemma flags_core ws ss v : total ws = 8%nat -> v < 256 ->
  (binary_byte (concat ss) -> v = bin_val (concat ss)) ->
  (ss = cut ws (shown v) <-> documented_widths ws ss).
Proof.
  intros Ht Hv Hp. split.
  - intros ->. apply cut_documented. rewrite Ht, shown_fmt by exact Hv. apply fmt8_bits, Hv.
  - intros Hd. pose proof (concat_bits ws ss Hd) as Hb. rewrite Ht in Hb.
    destruct (parse8_bits _ Hb) as (v' & H1 & _ & H2). apply parse8_iff in H1. destruct H1 as [H1 Hv'].
    rewrite <- Hp in Hv' by exact H1. subst v'. rewrite shown_fmt, H2 by exact Hv. symmetry. apply cut_concat, Hd.
Qed.
Lemma flags_parsed ws ss v : total ws = 8%nat -> parse8 (concat ss) = Ok v ->
  (ss = cut ws (shown v) <-> documented_widths ws ss).
Proof.
  intros Ht H. apply flags_core; [exact Ht|eapply parse8_lt; exact H|]. intros _. apply parse8_iff in H. tauto.
Qed.

Lemma parse_uint_lt s : fst (parse_uint 255 s) < 256.
Proof.
  unfold parse_uint. destruct s as [|c s]; [reflexivity|]. generalize (c :: s). intros l.
  assert (H : forall l acc, acc < 256 -> fst (parse_bin_from 255 acc l) < 256).
  { clear. induction l as [|c l IH]; intros acc Ha; cbn [parse_bin_from]; [exact Ha|].
    destruct (_ || _); [|reflexivity]. destruct (N.ltb_spec 255 (2 * acc + (c - ch0))); [reflexivity|]. apply IH. lia. }
  apply H. reflexivity.
Qed.

Lemma concat8 {A} (a b c d e f g h : list A) : concat [a; b; c; d; e; f; g; h] = a ++ b ++ c ++ d ++ e ++ f ++ g ++ h.
Proof. cbn [concat]. rewrite app_nil_r. reflexivity. Qed.

Lemma nth_le k i v r : nth (k + i) (le_enc k v ++ r) 0 = nth i r 0.
Proof. rewrite app_nth2; rewrite length_le_enc; [|lia]. f_equal. lia. Qed.

Lemma sr_flags_exact d b off ws ss : sr_encode d = Ok b -> In (off, ws, ss) (sr_flags d) ->
  (ss = cut ws (shown (nth off b 0)) <-> documented_widths ws ss).
Proof.
  intros He Hin. destruct d; cbn [sr_flags In] in Hin; try contradiction; cbn [sr_encode] in He.
  - (* pos *) destruct Hin as [Hin|[]]. injection Hin as <- <- <-. unfold pos_encode in He.
    apply bind_ok in He. destruct He as (v & Hv & He). apply Ok_inj in He. subst b.
    rewrite <- concat8 in Hv. rewrite (nth_le 4 8), (nth_le 4 4), (nth_le 4 0). cbn [app nth].
    apply flags_parsed; [reflexivity|exact Hv].
  - (* term *) destruct Hin as [Hin|[]]. injection Hin as <- <- <-. unfold term_encode in He. cbv zeta in He.
    apply Ok_inj in He. subst b.
    rewrite (nth_le 4 0). cbn [app nth]. rewrite <- concat8.
    apply flags_core; [reflexivity|apply parse_uint_lt|]. intros Hb.
    apply parse8_uint. apply parse8_iff. auto.
  - (* ext *) destruct Hin as [Hin|[]]. injection Hin as <- <- <-. unfold ext_encode in He.
    apply bind_ok in He. destruct He as (v & Hv & He). apply Ok_inj in He. subst b. cbn [app nth].
    apply flags_parsed; [reflexivity|]. cbn [concat]. rewrite app_nil_r. exact Hv.
  - (* ad *) unfold ad_encode in He.
    apply bind_ok in He. destruct He as (v & Hv & He). apply bind_ok in He. destruct He as (w & Hw & He).
    apply Ok_inj in He. subst b. unfold concat_high_first in Hv. unfold concat_low_first in Hw. rewrite <- concat8 in Hv, Hw.
    destruct Hin as [Hin|[Hin|[]]]; injection Hin as <- <- <-; cbn [app nth]; apply flags_parsed; auto.
  - (* state *) destruct Hin as [Hin|[]]. injection Hin as <- <- <-. unfold state_encode in He.
    apply bind_ok in He. destruct He as (v & Hv & He). apply Ok_inj in He. subst b. cbn [app nth].
    apply flags_parsed; [reflexivity|]. cbn [concat]. rewrite app_nil_r. exact Hv.
  - (* liquid *) destruct Hin as [Hin|[]]. injection Hin as <- <- <-. unfold liquid_encode in He.
    apply bind_ok in He. destruct He as (v & Hv & He). apply Ok_inj in He. subst b. cbn [app nth].
    apply flags_parsed; [reflexivity|]. cbn [concat]. rewrite app_nil_r. exact Hv.
  - (* counters *) destruct Hin as [Hin|[]]. injection Hin as <- <- <-. unfold counters_encode in He.
    apply bind_ok in He. destruct He as (v & Hv & He). apply Ok_inj in He. subst b. cbn [app nth].
    apply flags_parsed; [reflexivity|]. unfold concat_high_first in Hv; rewrite <- concat8 in Hv; exact Hv.
Qed.

Lemma sdr_flags_exact s b : sdr_encode s = Ok b ->
  (sdr_flag_strings s = cut sdr_widths (shown (nth 4 b 0)) <-> documented_widths sdr_widths (sdr_flag_strings s)).
Proof.
  intros He. unfold sdr_encode in He. apply bind_ok in He. destruct He as (rd & _ & He). cbv zeta in He.
  apply bind_ok in He. destruct He as (v & Hv & He). apply Ok_inj in He. subst b.
  rewrite (nth_le 2 2), (nth_le 2 0). cbn [app nth].
  apply flags_parsed; [reflexivity|]. unfold sdr_flag_strings. cbn [concat]. rewrite app_nil_r. exact Hv.
Qed.

Lemma pkg_flags_exact p p1 b : pkg_encode p = (p1, Ok b) ->
  (pkg_flag_strings p = cut pkg_widths (shown (nth 2 b 0)) <-> documented_widths pkg_widths (pkg_flag_strings p)).
Proof.
  intros He. apply pkg_encode_ok in He. destruct He as (fl & body & Hp & _ & _ & ->).
  unfold enc_hdr. cbn [app nth]. apply flags_parsed; [reflexivity|]. unfold pkg_flag_strings. cbn [concat]. rewrite app_nil_r. exact Hp.
Qed.

(** ** When Encode refuses *)
Lemma sr_flags_refused d : (match d with SRTerm _ => False | _ => True end) ->
  (exists off ws ss, In (off, ws, ss) (sr_flags d) /\ ~ binary_byte (concat ss)) -> sr_encode d = Err.
Proof.
  intros Ht (off & ws & ss & Hin & Hb). apply parse8_err in Hb.
  destruct d; cbn [sr_flags In] in Hin; try contradiction; cbn [sr_encode].
  - destruct Hin as [Hin|[]]. injection Hin as <- <- <-. cbn [concat] in Hb; rewrite app_nil_r in Hb. unfold pos_encode. rewrite Hb. reflexivity.
  - destruct Hin as [Hin|[]]. injection Hin as <- <- <-. cbn [concat] in Hb. rewrite app_nil_r in Hb. unfold ext_encode.
    cbn [app] in *. unfold ch0. rewrite Hb. reflexivity.
  - unfold ad_encode, concat_high_first, concat_low_first.
    destruct Hin as [Hin|[Hin|[]]]; injection Hin as <- <- <-; cbn [concat] in Hb; rewrite app_nil_r in Hb; rewrite Hb; [reflexivity|].
    match goal with |- bind ?x _ = _ => destruct (parse8_returns (o8 (DIOE e) ++ o7 (DIOE e) ++ o6 (DIOE e) ++ o5 (DIOE e) ++ o4 (DIOE e) ++ o3 (DIOE e) ++ o2 (DIOE e) ++ o1 (DIOE e))) as [Hq|[v Hq]]; rewrite Hq; reflexivity end.
  - destruct Hin as [Hin|[]]. injection Hin as <- <- <-. cbn [concat] in Hb. rewrite app_nil_r in Hb. unfold state_encode.
    cbn [app] in *. unfold ch0. rewrite Hb. reflexivity.
  - destruct Hin as [Hin|[]]. injection Hin as <- <- <-. cbn [concat] in Hb. rewrite app_nil_r in Hb. unfold liquid_encode, s0.
    cbn [app] in *. unfold ch0. rewrite Hb. reflexivity.
  - destruct Hin as [Hin|[]]. injection Hin as <- <- <-. cbn [concat] in Hb; rewrite app_nil_r in Hb. unfold counters_encode, concat_high_first. rewrite Hb. reflexivity.
Qed.

Lemma sr_flags_refused_only d : (match d with SRPlus _ => False | _ => True end) -> sr_encode d = Err ->
  exists off ws ss, In (off, ws, ss) (sr_flags d) /\ ~ binary_byte (concat ss).
Proof.
  intros Ht He. destruct d; try contradiction; cbn [sr_encode sr_flags] in *; try discriminate.
  - unfold pos_encode in He. destruct (parse8_returns (ALTE e ++ LOHS e ++ LAHS e ++ MV e ++ BB e ++ CS e ++ FIX e ++ VLD e)) as [H|[v H]]; rewrite H in He; [|discriminate].
    eexists _, _, _. split; [left; reflexivity|]. apply parse8_err. cbn [concat]; rewrite app_nil_r; exact H.
  - unfold ext_encode in He. match type of He with bind (parse8 ?s) _ = _ => destruct (parse8_returns s) as [H|[v H]] end; rewrite H in He; [|discriminate].
    eexists _, _, _. split; [left; reflexivity|]. apply parse8_err. cbn [concat]. rewrite app_nil_r. exact H.
  - unfold ad_encode in He. destruct (parse8_returns (concat_high_first (DIOE e))) as [H|[v H]]; rewrite H in He.
    + eexists _, _, _. split; [left; reflexivity|]. apply parse8_err. cbn [concat]; rewrite app_nil_r; exact H.
    + cbn [bind] in He. destruct (parse8_returns (concat_low_first (ASFE e))) as [H'|[w H']]; rewrite H' in He; [|discriminate].
      eexists _, _, _. split; [right; left; reflexivity|]. apply parse8_err. cbn [concat]; rewrite app_nil_r; exact H'.
  - unfold state_encode in He. match type of He with bind (parse8 ?s) _ = _ => destruct (parse8_returns s) as [H|[v H]] end; rewrite H in He; [|discriminate].
    eexists _, _, _. split; [left; reflexivity|]. apply parse8_err. cbn [concat]. rewrite app_nil_r. exact H.
  - unfold liquid_encode in He. match type of He with bind (parse8 ?s) _ = _ => destruct (parse8_returns s) as [H|[v H]] end; rewrite H in He; [|discriminate].
    eexists _, _, _. split; [left; reflexivity|]. apply parse8_err. cbn [concat]. rewrite app_nil_r. exact H.
  - unfold counters_encode in He. destruct (parse8_returns (concat_high_first (CFE e))) as [H|[v H]]; rewrite H in He; [|discriminate].
    eexists _, _, _. split; [left; reflexivity|]. apply parse8_err. cbn [concat]; rewrite app_nil_r; exact H.
Qed.

Lemma pkg_flags_refused p : ~ binary_byte (concat (pkg_flag_strings p)) -> snd (pkg_encode p) = Err.
Proof.
  intros Hb. apply parse8_err in Hb. unfold pkg_flag_strings in Hb. cbn [concat] in Hb. rewrite app_nil_r in Hb.
  unfold pkg_encode. rewrite Hb. reflexivity.
Qed.

End FlagFacts.
