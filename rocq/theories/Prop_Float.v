(** * Prop_Float: C19–C21, C70–C72 — coordinates and times as real numbers.
    [real x] is the real number of the float64 [x]; [float64 x] says that [x] is
    a finite float64 (Spec_Float.v). *)
From Coq Require Import ZArith Reals Lra Lia.
From Coq Require Import Floats.SpecFloat.
From Verif Require Import GoBase Float64 SubRecords Records Package Storage Server
  Spec_Bits Spec_Wf Spec_Rec Spec_Server Spec_Float SubFacts RecFacts CoordFacts DecWf SavedFacts Vectors TimeExact.
Local Open Scope R_scope.

(** ** C19: for every position whose latitude and longitude are float64 numbers
    in [0,90] and [0,180], what arrives after Encode and Decode is within
    2.2e-8 and 4.3e-8 degrees. *)
Theorem C19_coordinates_survive : forall (E : go_env) e, wf_pos e = true ->
  float64 (Latitude e) -> 0 <= real (Latitude e) <= 90 ->
  float64 (Longitude e) -> 0 <= real (Longitude e) <= 180 ->
  exists b e', pos_encode e = Ok b /\ pos_decode b = Ok e' /\
    Rabs (real (Latitude e') - real (Latitude e)) <= 22 / 1000000000 /\
    Rabs (real (Longitude e') - real (Longitude e)) <= 43 / 1000000000.
Proof.
  intros E e Hw Hla Bla Hlo Blo. destruct (pos_roundtrip e Hw) as (b & He & Hd & _).
  exists b, (quant_pos e). split; [exact He|]. split; [exact Hd|]. unfold quant_pos. cbn [Latitude Longitude].
  pose proof (enc_dec_close 90 (or_introl eq_refl) (Latitude e) Hla Bla) as H1.
  pose proof (enc_dec_close 180 (or_intror eq_refl) (Longitude e) Hlo Blo) as H2.
  change (IZR (Z.of_N 90)) with 90 in H1. change (IZR (Z.of_N 180)) with 180 in H2. split; lra.
Qed.
(** Every position decoded from any bytes has coordinates in range. *)
Theorem C19_decoded_in_range : forall (E : go_env) b e, bytes_ok b = true -> pos_decode b = Ok e ->
  float64 (Latitude e) /\ 0 <= real (Latitude e) <= 90 /\
  float64 (Longitude e) /\ 0 <= real (Longitude e) <= 180.
Proof.
  intros E b e Hb Hd. destruct (pos_dec_wf b e Hb Hd) as (_ & _ & _ & (v & Hv & ->) & (w & Hw & ->)).
  destruct (dec_val 90 (or_introl eq_refl) v Hv) as [V1 _]. destruct (dec_val 180 (or_intror eq_refl) w Hw) as [W1 _].
  destruct (dec_real 90 (or_introl eq_refl) v Hv) as (t & _ & _ & _ & V2 & _).
  destruct (dec_real 180 (or_intror eq_refl) w Hw) as (t' & _ & _ & _ & W2 & _). auto.
Qed.
Example C19_example : float64 (S754_finite false 7818515509593830 (-47)) /\
  0 <= real (S754_finite false 7818515509593830 (-47)) <= 90.
Proof. split; [split; reflexivity|]. unfold real. cbn. unfold Defs.F2R. cbn. lra. Qed.

(** ** C20: re-encoding the decoded coordinate gives the wire value again.
    Refuted: 186415 comes back as 186414; and a second hop loses another unit. *)
Theorem C20_reencode_refuted : forall E : go_env,
  coord_encode 90 (coord_decode 90 186415) = 186414%N /\
  coord_encode 180 (coord_decode 180 186415) = 186414%N /\
  exists v, (v < 2 ^ 32)%N /\ coord_encode 90 (coord_decode 90 v) = (v - 1)%N /\
    coord_encode 90 (coord_decode 90 (v - 1)) = (v - 2)%N.
Proof.
  intros E. split; [vm_compute; reflexivity|]. split; [vm_compute; reflexivity|].
  exists 400000129%N. repeat split; vm_compute; reflexivity.
Qed.
(** What holds for all wire values: it comes back unchanged or one less; so
    after n hops at most n units are lost. *)
Theorem C20_reencode_partial : forall (E : go_env) full v, (full = 90 \/ full = 180)%N -> (v < 2 ^ 32)%N ->
  coord_encode full (coord_decode full v) = v \/
  (0 < v)%N /\ coord_encode full (coord_decode full v) = (v - 1)%N.
Proof. intros E full v Hf. exact (dec_enc_close full Hf v). Qed.
Theorem C20_hops_partial : forall (E : go_env) full v n, (full = 90 \/ full = 180)%N -> (v < 2 ^ 32)%N ->
  let w := Nat.iter n (fun x => coord_encode full (coord_decode full x)) v in
  (w <= v /\ v <= w + N.of_nat n)%N.
Proof.
  intros E full v n Hf Hv. induction n as [|n IH]; cbn [Nat.iter nat_rect]; [lia|]. cbv zeta in *.
  change (nat_rect (fun _ : nat => N) v (fun _ : nat => fun x : N => coord_encode full (coord_decode full x)) n) with
    (Nat.iter n (fun x => coord_encode full (coord_decode full x)) v).
  set (w := Nat.iter n (fun x => coord_encode full (coord_decode full x)) v) in *.
  destruct (dec_enc_close full Hf w) as [-> | [H ->]]; lia.
Qed.

(** ** C21: time.  Every wire value decodes to that many seconds since
    2010-01-01T00:00:00Z and re-encodes to itself.  [time_decode] gives
    nanoseconds. *)
Theorem C21_whole_seconds : forall (E : go_env) v, (v < 2 ^ 32)%N ->
  time_decode v = (Z.of_N v * 1000000000)%Z /\ time_encode (time_decode v) = v.
Proof. intros E v Hv. split; [reflexivity|]. apply time_roundtrip, Hv. Qed.
(** The floor of a fractional second.  Refuted: 2078-01-19T03:14:08.999999999Z
    is sent as the next second. *)
Theorem C21_floor_refuted : forall E : go_env,
  time_encode (2147483648 * 1000000000 + 999999999) = 2147483649%N.
Proof. intros E. vm_compute. reflexivity. Qed.
(** True for fractions up to 0.999999 s, in particular for every time given in
    microseconds; and never off by more than one. *)
Theorem C21_floor_partial : forall (E : go_env) s ns, (0 <= s < 2 ^ 32)%Z -> (0 <= ns <= 999999000)%Z ->
  Z.of_N (time_encode (s * 1000000000 + ns)) = s.
Proof. intros E. exact time_floor. Qed.
Theorem C21_off_by_one_at_most : forall (E : go_env) s ns, (0 <= s < 2 ^ 32 - 1)%Z -> (0 <= ns < 1000000000)%Z ->
  Z.of_N (time_encode (s * 1000000000 + ns)) = s \/ Z.of_N (time_encode (s * 1000000000 + ns)) = (s + 1)%Z.
Proof. intros E. exact time_near. Qed.
(** Exactly: rounded up if and only if the next second is nearer than half a unit
    in the last place of the seconds, 2^(log2 s - 53). *)
Theorem C21_floor_iff : forall (E : go_env) s ns, (0 <= s < 2 ^ 32 - 1)%Z -> (0 <= ns < 1000000000)%Z ->
  (Z.of_N (time_encode (s * 1000000000 + ns)) = s <-> 1000000000 * 2 ^ Z.log2 s < (1000000000 - ns) * 2 ^ 53)%Z.
Proof. intros E. exact time_floor_iff. Qed.
Example C21_iff_example : forall E : go_env,
  time_encode (351477040 * 1000000000 + 999999970) = 351477040%N /\
  time_encode (351477040 * 1000000000 + 999999971) = 351477041%N.
Proof. intros E. split; vm_compute; reflexivity. Qed.
Example C21_example : forall E : go_env, time_encode (351477040 * 1000000000 + 999999000) = 351477040%N.
Proof. intros E. vm_compute. reflexivity. Qed.

(** ** C70: no two wire coordinates are confused: decoding is strictly monotone;
    and encoding never swaps the order of two coordinates. *)
Theorem C70_decode_strictly_monotone : forall (E : go_env) full v w, (full = 90 \/ full = 180)%N ->
  (v < w)%N -> (w < 2 ^ 32)%N -> real (coord_decode full v) < real (coord_decode full w).
Proof. intros E full v w Hf. exact (dec_monotone full Hf v w). Qed.
Theorem C70_encode_monotone : forall (E : go_env) full x y, (full = 90 \/ full = 180)%N ->
  float64 x -> float64 y -> 0 <= real x -> real x <= real y -> real y <= IZR (Z.of_N full) ->
  (coord_encode full x <= coord_encode full y)%N.
Proof. intros E full x y Hf. exact (enc_monotone full Hf x y). Qed.

(** ** C71: every location ever handed to a storage, in every execution and
    whatever the clients send, has finite coordinates in range. *)
Theorem C71_saved_coordinates_in_range : forall (E : go_env) stores conns sched i k n o,
  Forall in_ok conns -> In (i, ECall k n o) (g_trace (grun stores sched (ginit conns))) ->
  nrLocs n <> [] /\
  Forall (fun s => float64 (lsLat s) /\ 0 <= real (lsLat s) <= 90 /\
                   float64 (lsLng s) /\ 0 <= real (lsLng s) <= 180 /\ (lsSpeed s <= 1638)%N) (nrLocs n).
Proof.
  intros E stores conns sched i k n o Hok Hin.
  destruct (every_call_built stores conns sched i k n o Hok Hin) as (l & Hl & Hne & Hloc & _).
  split. { intros Hn. rewrite Hn in Hloc. inversion Hloc. congruence. }
  assert (G : forall e, In e (positions l) -> exists b, bytes_ok b = true /\ pos_decode b = Ok e)
    by (intros e He; eapply decoded_position; eassumption).
  clear Hin Hne. induction Hloc as [|e s es ss Hs _ IH]; constructor.
  - destruct (G e (or_introl eq_refl)) as (b & Hb & Hd). destruct (C19_decoded_in_range E b e Hb Hd) as (H1 & H2 & H3 & H4).
    destruct Hs as (-> & -> & -> & _). repeat (split; [assumption|]).
    destruct (pos_dec_wf b e Hb Hd) as (Hw & _). unfold wf_pos in Hw. cbn [Speed pos_alt0] in Hw.
    rewrite !Bool.andb_true_iff in Hw. apply N.leb_le. tauto.
  - apply IH. intros e' He'. apply G. right. exact He'.
Qed.

Example C71_example : let g := grun [fun _ => SvOk] (repeat 0%nat 12) (ginit [mkIn [vec_msg] CEof]) in
  existsb (fun x => match snd x with ECall 0 n SvOk => match nrLocs n with [] => false | _ => true end | _ => false end) (g_trace g) = true.
Proof. vm_compute. reflexivity. Qed.

(** ** C72: Encode refuses a coordinate outside the range.  Refuted: it succeeds
    for every latitude, also negative, too large, infinite or NaN, and what
    arrives is another latitude. *)
Theorem C72_out_of_range_rejected_refuted : forall (E : go_env) e, wf_pos e = true ->
  exists b e', pos_encode e = Ok b /\ pos_decode b = Ok e' /\ 0 <= real (Latitude e') <= 90 /\ 0 <= real (Longitude e') <= 180.
Proof.
  intros E e Hw. destruct (pos_roundtrip e Hw) as (b & He & Hd & _).
  exists b, (quant_pos e). split; [exact He|]. split; [exact Hd|].
  assert (R : forall full x, (coord_encode full x < 2 ^ 32)%N).
  { intros full x. unfold coord_encode, f_to_u32. destruct (f_mul _ _); try reflexivity; try (apply N.mod_lt; discriminate).
    destruct (andb _ _) eqn:Ha; [|apply N.mod_lt; discriminate]. apply Bool.andb_true_iff in Ha. apply N.ltb_lt. apply Ha. }
  unfold quant_pos. cbn [Latitude Longitude].
  destruct (dec_real 90 (or_introl eq_refl) _ (R 90%N (Latitude e))) as (t & _ & _ & _ & V2 & _).
  destruct (dec_real 180 (or_intror eq_refl) _ (R 180%N (Longitude e))) as (t' & _ & _ & _ & W2 & _). auto.
Qed.
Example C72_example : wf_pos {| NavigationTime := 0; Latitude := f_of_Z (-10);
  Longitude := S754_nan; ALTE := s0; LOHS := s0; LAHS := s0; MV := s1; BB := s1; CS := s0; FIX := s1; VLD := s1;
  DirectionHighestBit := 0; AltitudeSign := 0; Speed := 0; Direction := 0; Odometer := 0; DigitalInputs := 0;
  Source := 0; Altitude := 0 |} = true.
Proof. reflexivity. Qed.
Print Assumptions C19_coordinates_survive.
Print Assumptions C19_decoded_in_range.
Print Assumptions C20_reencode_refuted.
Print Assumptions C20_reencode_partial.
Print Assumptions C20_hops_partial.
Print Assumptions C21_whole_seconds.
Print Assumptions C21_floor_refuted.
Print Assumptions C21_floor_partial.
Print Assumptions C21_off_by_one_at_most.
Print Assumptions C21_floor_iff.
Print Assumptions C70_decode_strictly_monotone.
Print Assumptions C70_encode_monotone.
Print Assumptions C71_saved_coordinates_in_range.
Print Assumptions C72_out_of_range_rejected_refuted.
