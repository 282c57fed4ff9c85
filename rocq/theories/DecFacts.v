(** * DecFacts: the record-level decoders return on every input, without panic. *)
From Coq Require Import Lia ZifyBool ZifyNat ZifyN.
From Verif Require Import GoBase Spec_Bits BaseFacts Float64 SubRecords Records.

Section DecFacts.
Context {E : go_env}.

(** The call returns a value or an error. *)
Definition returns {A} (r : res A) : Prop := match r with Ok _ | Err => True | _ => False end.

Lemma returns_bind {A B} (x : res A) (f : A -> res B) :
  returns x -> (forall a, x = Ok a -> returns (f a)) -> returns (bind x f).
Proof. destruct x; cbn; auto. Qed.
Lemma returns_ok {A} (a : A) : returns (Ok a). Proof. exact I. Qed.
Lemma returns_err {A} : @returns A Err. Proof. exact I. Qed.

Lemma returns_reader buf r : returns (reader_read buf r).
Proof. destruct r; exact I. Qed.
Lemma returns_buffer buf r : returns (buffer_read buf r).
Proof. destruct r; destruct buf; exact I. Qed.
Lemma returns_byte r : returns (read_byte r).
Proof. destruct r; exact I. Qed.
Lemma returns_string d r : returns (read_string d r).
Proof.
  induction r as [|c r IH]; cbn; [exact I|]. destruct (c =? d); [exact I|].
  apply returns_bind; [exact IH|]. intros [s r'] _. exact I.
Qed.
Lemma returns_read_le tmp r : returns (read_le tmp r).
Proof. unfold read_le. apply returns_bind; [apply returns_reader|]. intros [? ?] _; exact I. Qed.
Lemma returns_opt_le f c tmp r : returns (opt_le f c tmp r).
Proof. unfold opt_le. destruct (is1 f); [apply returns_read_le|exact I]. Qed.
Lemma returns_opt_byte f c r : returns (opt_byte f c r).
Proof. unfold opt_byte. destruct (is1 f); [apply returns_byte|exact I]. Qed.
Lemma returns_opt_fresh f c k r : returns (opt_fresh f c k r).
Proof. unfold opt_fresh. destruct (is1 f); [apply returns_reader|exact I]. Qed.
Lemma returns_opt4 f r : returns (opt4 f r).
Proof.
  unfold opt4. destruct (is1 f); [|exact I]. apply returns_bind; [apply returns_reader|].
  intros [? ?] _; exact I.
Qed.
Lemma returns_parse8 s : returns (parse8 s).
Proof. unfold parse8. destruct (parse_uint 255 s) as [v []]; exact I. Qed.
Lemma returns_parse16 s : returns (parse16 s).
Proof. unfold parse16. destruct (parse_uint 65535 s) as [v []]; exact I. Qed.

Ltac ret :=
  repeat first
    [ exact I | assumption
    | apply returns_reader | apply returns_buffer | apply returns_byte | apply returns_string
    | apply returns_read_le | apply returns_opt_le | apply returns_opt_byte
    | apply returns_opt_fresh | apply returns_opt4 | apply returns_parse8 | apply returns_parse16
    | apply returns_bind; [|let p := fresh in intros p _; repeat (let q := fresh in destruct p as [p q])] ].

Lemma pos_returns b : returns (pos_decode b). Proof. unfold pos_decode. ret. Qed.
Lemma ext_returns b : returns (ext_decode b). Proof. unfold ext_decode. ret. Qed.
Lemma state_returns b : returns (state_decode b). Proof. unfold state_decode. ret. Qed.
Lemma liquid_returns b : returns (liquid_decode b). Proof. unfold liquid_decode. ret. Qed.
Lemma abs_cntr_returns b : returns (abs_cntr_decode b). Proof. unfold abs_cntr_decode. ret. Qed.
Lemma abs_an_returns b : returns (abs_an_decode b).
Proof. unfold abs_an_decode. destruct (blen b <? 4); exact I. Qed.
Lemma result_returns b : returns (result_decode b). Proof. unfold result_decode. ret. Qed.
Lemma disp_returns b : returns (disp_decode b). Proof. unfold disp_decode. ret. Qed.
Lemma auth_returns b : returns (auth_decode b).
Proof.
  unfold auth_decode. apply returns_bind; [ret|]. intros [u r] _.
  apply returns_bind; [ret|]. intros [p r'] _. destruct r'; ret.
Qed.
Lemma term_returns b : returns (term_decode b). Proof. unfold term_decode. ret. Qed.
Lemma counters_returns b : returns (counters_decode b). Proof. unfold counters_decode. ret. Qed.
Lemma ad_returns b : returns (ad_decode b). Proof. unfold ad_decode. ret. Qed.
Lemma plus_returns b : returns (plus_decode b).
Proof. unfold plus_decode. destruct (pb_unmarshal b); exact I. Qed.
Lemma rmap_returns {A B} (f : A -> B) x : returns x -> returns (rmap f x).
Proof. destruct x; cbn; auto. Qed.

(** ** Termination.  [supp n b]: all bytes from position n on are zero (bytes
    beyond the end count as zero, so zero padding does not change it). *)
Definition supp (n : nat) (b : bytes) : Prop := forall i, (n <= i)%nat -> nth i b 0 = 0.

Lemma supp_length b : supp (length b) b.
Proof. intros i Hi. apply nth_overflow. exact Hi. Qed.
Lemma supp_mono n m b : (n <= m)%nat -> supp n b -> supp m b.
Proof. intros H Hs i Hi. apply Hs. lia. Qed.
Lemma nth_skipn_ {A} k i (b : list A) d : nth i (skipn k b) d = nth (k + i) b d.
Proof.
  revert b; induction k as [|k IH]; intros b; [reflexivity|]. destruct b; cbn; [destruct i; reflexivity|].
  apply IH.
Qed.
Lemma nth_firstn_ {A} k i (b : list A) d : nth i (firstn k b) d = if (i <? k)%nat then nth i b d else d.
Proof.
  revert i b; induction k as [|k IH]; intros i b; [destruct i; reflexivity|].
  destruct b as [|x b].
  - cbn [firstn]. destruct (i <? S k)%nat; destruct i; reflexivity.
  - destruct i as [|i]; [reflexivity|]. cbn [firstn nth]. rewrite IH. reflexivity.
Qed.
Lemma supp_skipn n k b : supp n b -> supp (n - k) (skipn k b).
Proof. intros H i Hi. rewrite nth_skipn_. apply H. lia. Qed.
Lemma supp_skipn_le n k b : supp n b -> supp n (skipn k b).
Proof. intros H. apply supp_mono with (n - k)%nat; [lia|]. apply supp_skipn; exact H. Qed.
Lemma supp_firstn n k b : supp n b -> supp n (firstn k b).
Proof.
  intros H i Hi. rewrite nth_firstn_. destruct (i <? k)%nat; [apply H; exact Hi|reflexivity].
Qed.
Lemma nth_zeros i n : nth i (zeros n) 0 = 0.
Proof. revert i; induction n as [|n IH]; intros [|i]; cbn; auto. Qed.
Lemma supp_copy_zeros n k r : supp n r -> supp n (copy_into (zeros k) r).
Proof.
  intros H i Hi. unfold copy_into. rewrite length_zeros.
  destruct (Nat.lt_ge_cases i (length (firstn k r))) as [Hl|Hl].
  - rewrite app_nth1 by exact Hl. apply supp_firstn with (1 := H). exact Hi.
  - rewrite app_nth2 by exact Hl. rewrite nth_skipn_. apply nth_zeros.
Qed.
Lemma supp0_le_dec b : supp 0 b -> le_dec b = 0.
Proof.
  induction b as [|x b IH]; intros H; [reflexivity|]. cbn [le_dec].
  pose proof (H O ltac:(lia)) as H0. cbn in H0. subst x. rewrite IH; [reflexivity|].
  intros i _. apply (H (S i)). lia.
Qed.

(** What one read leaves. *)
Lemma reader_read_inv buf r x r' : reader_read buf r = Ok (x, r') ->
  x = copy_into buf r /\ r' = skipn (length buf) r /\ r <> [].
Proof. unfold reader_read. destruct r; [discriminate|]. intros H; injection H as <- <-. repeat split. discriminate. Qed.
Lemma buffer_read_inv buf r x r' : buffer_read buf r = Ok (x, r') ->
  x = copy_into buf r /\ r' = skipn (length buf) r.
Proof.
  unfold buffer_read. destruct r; [destruct buf|]; try discriminate;
  intros H; injection H as <- <-; split; reflexivity.
Qed.
Lemma read_byte_inv r x r' : read_byte r = Ok (x, r') -> r = x :: r'.
Proof. destruct r; [discriminate|]. intros H; injection H as <- <-. reflexivity. Qed.
Lemma opt4_inv f r v r' : opt4 f r = Ok (v, r') -> exists k, r' = skipn k r.
Proof.
  unfold opt4. destruct (is1 f).
  - intros H. destruct (reader_read (zeros 4) r) as [[x y]| | |] eqn:Hr; try discriminate.
    cbn in H. injection H as _ <-. apply reader_read_inv in Hr. destruct Hr as (_ & -> & _). eauto.
  - intros H. injection H as _ <-. exists O. reflexivity.
Qed.

Lemma skipn_skipn_ {A} a b (l : list A) : skipn a (skipn b l) = skipn (b + a) l.
Proof. revert l; induction b as [|b IH]; intros l; [reflexivity|]. destruct l; [destruct a; reflexivity|apply IH]. Qed.

(** The rds loop, given that the subrecord decoder returns on everything of
    support below d. *)
Lemma rds_loop_returns dec n : 
  (forall t len b, supp (n - 3) b -> returns (dec t len b)) ->
  forall fuel r, (length r <= fuel)%nat -> supp n r -> returns (rds_loop dec fuel r).
Proof.
  intros Hdec. induction fuel as [|fuel IH]; intros r Hl Hs.
  - destruct r; [exact I|cbn in Hl; lia].
  - destruct r as [|t r]; [exact I|].
    cbn [rds_loop read_byte bind]. apply returns_bind; [apply returns_buffer|].
    intros [lb r2] Hb. apply buffer_read_inv in Hb. destruct Hb as [-> ->].
    rewrite length_zeros. cbn [length] in Hl. 
    unfold buffer_next. rewrite skipn_skipn_.
    assert (supp (n - 1) r) as Hs1 by (intros i Hi; apply (Hs (S i)); lia).
    apply returns_bind.
    + apply Hdec. apply supp_firstn. replace (n - 3)%nat with (n - 1 - 2)%nat by lia.
      apply supp_skipn. exact Hs1.
    + intros d _. apply returns_bind; [|intros l _; exact I].
      apply IH; [rewrite skipn_length; lia|].
      apply supp_mono with (n - 1)%nat; [lia|]. apply supp_skipn_le. exact Hs1.
Qed.

Lemma sdr_decode_returns rdsdec n r :
  (forall b, (n = O -> b = []) -> supp (n - 7) b -> returns (rdsdec b)) ->
  supp n r -> returns (sdr_decode rdsdec r) /\
  (forall s r', sdr_decode rdsdec r = Ok (s, r') -> exists k, r' = skipn (S k) r).
Proof.
  intros Hdec Hs. unfold sdr_decode.
  destruct (reader_read (zeros 2) r) as [[b r1]| | |] eqn:E1; cbn [bind];
    try (split; [exact I|intros; discriminate]);
    try (pose proof (returns_reader (zeros 2) r) as HH; rewrite E1 in HH; destruct HH).
  apply reader_read_inv in E1. destruct E1 as (-> & -> & Hne). rewrite length_zeros.
  set (rl := le_dec (copy_into (zeros 2) r)).
  assert (n = O -> rl = 0) as Hrl.
  { intros ->. apply supp0_le_dec. apply supp_copy_zeros. exact Hs. }
  match goal with |- context [reader_read ?x ?y] => destruct (reader_read x y) as [[b2 r2]| | |] eqn:E2;
    pose proof (returns_reader x y) as HH; rewrite E2 in HH end;
    cbn [bind]; try (split; [exact I|intros; discriminate]); try destruct HH.
  apply reader_read_inv in E2. destruct E2 as (-> & -> & _). rewrite length_copy_into, length_zeros, skipn_skipn_.
  match goal with |- context [read_byte ?y] => destruct (read_byte y) as [[fl r3]| | |] eqn:E3;
    pose proof (returns_byte y) as HH; rewrite E3 in HH end;
    cbn [bind]; try (split; [exact I|intros; discriminate]); try destruct HH.
  apply read_byte_inv in E3. 
  assert (r3 = skipn 5 r) as ->.
  { change r3 with (skipn 1 (fl :: r3)). rewrite <- E3, skipn_skipn_. reflexivity. }
  match goal with |- context [opt4 ?x ?y] => destruct (opt4 x y) as [[v4 r4]| | |] eqn:E4;
    pose proof (returns_opt4 x y) as HH; rewrite E4 in HH end;
    cbn [bind]; try (split; [exact I|intros; discriminate]); try destruct HH.
  apply opt4_inv in E4. destruct E4 as (k4 & ->). rewrite skipn_skipn_.
  match goal with |- context [opt4 ?x ?y] => destruct (opt4 x y) as [[v5 r5]| | |] eqn:E5;
    pose proof (returns_opt4 x y) as HH; rewrite E5 in HH end;
    cbn [bind]; try (split; [exact I|intros; discriminate]); try destruct HH.
  apply opt4_inv in E5. destruct E5 as (k5 & ->). rewrite skipn_skipn_.
  match goal with |- context [opt4 ?x ?y] => destruct (opt4 x y) as [[v6 r6]| | |] eqn:E6;
    pose proof (returns_opt4 x y) as HH; rewrite E6 in HH end;
    cbn [bind]; try (split; [exact I|intros; discriminate]); try destruct HH.
  apply opt4_inv in E6. destruct E6 as (k6 & ->). rewrite skipn_skipn_.
  set (k := (5 + k4 + k5 + k6)%nat).
  destruct (skipn k r) as [|c1 r7] eqn:Hk; cbn [read_byte bind]; [split; [exact I|intros; discriminate]|].
  destruct r7 as [|c2 r8]; cbn [read_byte bind]; [split; [exact I|intros; discriminate]|].
  assert (skipn (k + 2) r = r8) as Hr8 by (rewrite <- skipn_skipn_, Hk; reflexivity).
  destruct r8 as [|x r8'].
  { cbn [bind]. split; [exact I|]. intros s r' H. injection H as _ <-. exists (k + 1)%nat. rewrite <- Hr8. f_equal. lia. }
  cbn match. set (r8 := x :: r8') in *.
  match goal with |- context [reader_read ?x ?y] => destruct (reader_read x y) as [[b9 r9]| | |] eqn:E9;
    pose proof (returns_reader x y) as HH; rewrite E9 in HH end;
    cbn [bind]; try (split; [exact I|intros; discriminate]); try destruct HH.
  apply reader_read_inv in E9. destruct E9 as (-> & -> & _).
  assert (returns (rdsdec (copy_into (zeros (N.to_nat rl)) r8))) as Hret.
  { apply Hdec.
    - intros H0. rewrite (Hrl H0). reflexivity.
    - apply supp_copy_zeros. rewrite <- Hr8.
      apply supp_mono with (n - (k + 2))%nat; [unfold k; lia|]. apply supp_skipn; exact Hs. }
  destruct (rdsdec (copy_into (zeros (N.to_nat rl)) r8)) eqn:E10; cbn [bind]; try destruct Hret;
    (split; [exact I|]); try (intros; discriminate).
  intros s r' H. injection H as _ <-. rewrite <- Hr8, skipn_skipn_.
  eexists. f_equal. rewrite length_zeros. instantiate (1 := (k + 1 + N.to_nat rl)%nat). lia.
Qed.

Lemma sds_loop_returns rdsdec n :
  (forall b, (n = O -> b = []) -> supp (n - 7) b -> returns (rdsdec b)) ->
  forall fuel r, (length r <= fuel)%nat -> supp n r -> returns (sds_loop rdsdec fuel r).
Proof.
  intros Hdec. induction fuel as [|fuel IH]; intros r Hl Hs.
  - destruct r; [exact I|cbn in Hl; lia].
  - destruct r as [|t r]; [exact I|].
    cbn [sds_loop]. destruct (sdr_decode_returns rdsdec n (t :: r) Hdec Hs) as [H1 H2].
    apply returns_bind; [exact H1|]. intros [s r'] He.
    destruct (H2 _ _ He) as (k & ->). apply returns_bind; [|intros l _; exact I].
    apply IH.
    + rewrite skipn_length. cbn [length] in *. lia.
    + apply supp_skipn_le; exact Hs.
Qed.

(** The nesting bound: a subrecord whose support is below [d] is decoded within
    depth [d]. *)
Lemma sub_decode_returns d : forall n t len b, (n < d)%nat -> supp n b -> returns (sub_decode d t len b).
Proof.
  induction d as [|d IH]; intros n t len b Hn Hs; [lia|].
  cbn [sub_decode].
  repeat match goal with |- returns (if ?c then _ else _) => destruct c end;
    try exact I; try apply rmap_returns;
    auto using pos_returns, term_returns, result_returns, ext_returns, ad_returns, state_returns,
      liquid_returns, abs_cntr_returns, auth_returns, counters_returns, plus_returns, abs_an_returns,
      disp_returns.
  unfold response_decode. apply returns_bind; [apply returns_buffer|].
  intros [x r] Hx. apply buffer_read_inv in Hx. destruct Hx as [_ ->]. rewrite length_zeros.
  apply returns_bind; [apply returns_byte|]. intros [st r] Hr. apply read_byte_inv in Hr.
  assert (r = skipn 3 b) as ->.
  { change r with (skipn 1 (st :: r)). rewrite <- Hr, skipn_skipn_. reflexivity. }
  apply returns_bind; [|intros; exact I].
  apply sds_loop_returns with (n := n); [|lia|apply supp_skipn_le; exact Hs].
  intros rb Hrb Hsr.
  destruct n as [|n].
  - rewrite (Hrb eq_refl). exact I.
  - apply rds_loop_returns with (n := n); [|lia|apply supp_mono with (2 := Hsr); lia].
    intros t' len' b' Hb'. apply (IH (n - 3)%nat); [lia|exact Hb'].
Qed.

Lemma rds_decode_d_returns d n b : (n < d)%nat -> supp n b -> returns (rds_decode_d d b).
Proof.
  intros Hn Hs. apply rds_loop_returns with (n := n); [|lia|exact Hs].
  intros t len b' Hb'. apply sub_decode_returns with (n := (n - 3)%nat); [lia|exact Hb'].
Qed.
Lemma sds_decode_d_returns d n b : (n < d)%nat -> supp n b -> returns (sds_decode_d d b).
Proof.
  intros Hn Hs. apply sds_loop_returns with (n := n); [|lia|exact Hs].
  intros rb _ Hsr. apply rds_decode_d_returns with (n := (n - 7)%nat); [lia|exact Hsr].
Qed.

Lemma rds_decode_returns b : returns (rds_decode b).
Proof. apply rds_decode_d_returns with (n := length b); [unfold depth_for; lia|apply supp_length]. Qed.
Lemma sds_decode_returns b : returns (sds_decode b).
Proof. apply sds_decode_d_returns with (n := length b); [unfold depth_for; lia|apply supp_length]. Qed.
Lemma srresp_decode_returns b : returns (srresp_decode b).
Proof.
  unfold srresp_decode, response_decode. apply returns_bind; [apply returns_buffer|].
  intros [x r] _. apply returns_bind; [apply returns_byte|]. intros [st r'] _.
  apply returns_bind; [apply sds_decode_returns|]. intros; exact I.
Qed.
Lemma ptr_decode_returns b : returns (ptr_decode b).
Proof.
  unfold ptr_decode. apply returns_bind; [apply returns_buffer|]. intros [x r] _.
  apply returns_bind; [apply returns_byte|]. intros [st r'] _.
  destruct r'; [exact I|]. apply returns_bind; [apply sds_decode_returns|]. intros; exact I.
Qed.

(** The depth bound is irrelevant once large enough: deeper is the same. *)
End DecFacts.
