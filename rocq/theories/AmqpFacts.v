(** * AmqpFacts: lemmas about Amqp.v. *)
From Coq Require Import String List Lia Bool ZifyBool ZifyN ZifyNat.
From Verif Require Import GoBase Storage Connectors Amqp Spec_Storage Spec_Amqp StorageFacts.
Local Open Scope N_scope.
Local Open Scope list_scope.

Lemma cut_first_cases p s : forall a r, cut_first p s = (a, r) ->
  existsb p a = false /\
  match r with
  | None => s = a
  | Some b => exists c, p c = true /\ s = a ++ c :: b
  end.
Proof.
  induction s as [|c s IH]; intros a r; cbn [cut_first].
  - intros [= <- <-]. split; reflexivity.
  - destruct (p c) eqn:Hc.
    + intros [= <- <-]. split; [reflexivity|]. exists c. split; [exact Hc|reflexivity].
    + destruct (cut_first p s) as [a' r'] eqn:Hs. intros [= <- <-]. destruct (IH _ _ eq_refl) as [Ha Hr]. split.
      * cbn. rewrite Hc. exact Ha.
      * destruct r' as [b|]; [|subst; reflexivity]. destruct Hr as (d & Hd & ->). exists d. split; [exact Hd|reflexivity].
Qed.
Lemma cut_first_app p a c b : existsb p a = false -> p c = true -> cut_first p (a ++ c :: b) = (a, Some b).
Proof.
  induction a as [|x a IH]; cbn; intros Ha Hc; [rewrite Hc; reflexivity|].
  apply orb_false_iff in Ha as [-> Ha]. rewrite IH by assumption. reflexivity.
Qed.
Lemma cut_first_none p a : existsb p a = false -> cut_first p a = (a, None).
Proof.
  induction a as [|x a IH]; cbn; intros Ha; [reflexivity|].
  apply orb_false_iff in Ha as [-> Ha]. rewrite IH by assumption. reflexivity.
Qed.
Lemma existsb_split p (s : gostr) : existsb p s = true -> exists a c b, s = a ++ c :: b /\ existsb p a = false /\ p c = true.
Proof.
  intros H. destruct (cut_first p s) as [a r] eqn:Hs. destruct (cut_first_cases _ _ _ _ Hs) as [Ha Hr].
  destruct r as [b|]; [destruct Hr as (c & Hc & ->); exists a, c, b; split; [reflexivity|split; assumption]|]. cbv beta iota in Hr. rewrite Hr in H. congruence.
Qed.

Lemma cut_last_cases p s : forall r, cut_last p s = r ->
  match r with
  | None => existsb p s = false
  | Some (a, b) => existsb p b = false /\ exists c, p c = true /\ s = a ++ c :: b
  end.
Proof.
  induction s as [|c s IH]; intros r; cbn [cut_last].
  - intros <-. reflexivity.
  - specialize (IH _ eq_refl). destruct (cut_last p s) as [[a b]|].
    + intros <-. destruct IH as (Hb & d & Hd & ->). split; [exact Hb|]. exists d. split; [exact Hd|reflexivity].
    + destruct (p c) eqn:Hc; intros <-; [|cbn; rewrite Hc; exact IH].
      split; [exact IH|]. exists c. split; [exact Hc|reflexivity].
Qed.
Lemma cut_last_none p s : existsb p s = false -> cut_last p s = None.
Proof.
  induction s as [|c s IH]; cbn; intros H; [reflexivity|]. apply orb_false_iff in H as [-> H]. rewrite IH by assumption. reflexivity.
Qed.
Lemma cut_last_app p a c b : existsb p b = false -> p c = true -> cut_last p (a ++ c :: b) = Some (a, b).
Proof.
  intros Hb Hc. induction a as [|x a IH]; cbn; [rewrite cut_last_none, Hc by assumption; reflexivity|]. rewrite IH. reflexivity.
Qed.

(** ** Escapes *)
Lemma unescape_length host : forall n s t, (length s <= n)%nat -> unescape host s = Some t ->
  (length t <= length s)%nat /\ (length t = length s -> ~ In 37 s /\ t = s).
Proof.
  induction n as [|n IH]; intros s t Hn; destruct s as [|c s]; cbn [length] in Hn; try lia; cbn [unescape].
  - intros [= <-]. split; [cbn; lia|intros _; split; [intros []|reflexivity]].
  - intros [= <-]. split; [cbn; lia|intros _; split; [intros []|reflexivity]].
  - destruct (N.eqb_spec c 37) as [->|Hc].
    + destruct s as [|a [|b s]]; try discriminate. destruct (hex_val a); [|discriminate]. destruct (hex_val b); [|discriminate].
      destruct (_ && _ && _)%bool; [discriminate|]. cbn [length] in Hn.
      specialize (IH s). destruct (unescape host s) as [t'|]; [|discriminate]. intros [= <-].
      destruct (IH t' ltac:(lia) eq_refl) as [H _]. cbn [length]. split; [lia|intros; lia].
    + destruct (_ && _)%bool; [discriminate|].
      specialize (IH s). destruct (unescape host s) as [t'|]; [|discriminate]. intros [= <-].
      destruct (IH t' ltac:(lia) eq_refl) as [H H']. cbn [length]. split; [lia|]. intros E.
      destruct H' as [Hi ->]; [lia|]. split; [|reflexivity]. intros [E'|Hin]; [lia|exact (Hi Hin)].
Qed.
Lemma unescape_short host s t : unescape host s = Some t -> (length t <= length s)%nat.
Proof. intros H. exact (proj1 (unescape_length host (length s) s t (le_n _) H)). Qed.
Lemma unescape_same host s : unescape host s = Some s -> ~ In 37 s.
Proof. intros H. exact (proj1 (proj2 (unescape_length host (length s) s s (le_n _) H) eq_refl)). Qed.
Lemma unescape_bare s : ~ In 37 s -> unescape false s = Some s.
Proof.
  induction s as [|c s IH]; intros H; [reflexivity|]. cbn [unescape].
  destruct (N.eqb_spec c 37) as [->|Hc]; [exfalso; apply H; left; reflexivity|]. cbn [andb].
  rewrite IH by (intros Hi; apply H; right; exact Hi). reflexivity.
Qed.
Lemma unescape_host s : Forall (fun c => url_host_char c = true /\ c <> 37) s -> unescape true s = Some s.
Proof.
  induction s as [|c s IH]; intros H; [reflexivity|]. apply Forall_cons_iff in H as [[Hc Hn] H]. cbn [unescape].
  destruct (N.eqb_spec c 37) as [->|_]; [congruence|]. rewrite Hc. cbn [negb andb]. rewrite (IH H). reflexivity.
Qed.

(** ** The authority is what stands before the first '#', '?' or '/' *)
Definition stop (c : N) : bool := (c =? 35) || (c =? 63) || (c =? 47).

Lemma existsb_orb (p q : N -> bool) s : existsb (fun c => p c || q c) s = existsb p s || existsb q s.
Proof. induction s as [|c s IH]; cbn; [reflexivity|]. rewrite IH. destruct (p c), (q c), (existsb p s); reflexivity. Qed.

Lemma cut_fst_or (p q : N -> bool) s : fst (cut_first q (fst (cut_first p s))) = fst (cut_first (fun c => p c || q c) s).
Proof.
  induction s as [|c s IH]; cbn; [reflexivity|]. destruct (p c) eqn:Hp; cbn; [reflexivity|].
  destruct (cut_first p s) as [a r]. cbn in *. destruct (q c) eqn:Hq; cbn; [reflexivity|].
  destruct (cut_first q a) as [a' r']. cbn in *. destruct (cut_first (fun c => p c || q c) s) as [a'' r'']. cbn in *. congruence.
Qed.

Definition amqp_scheme : gostr := [97;109;113;112;58;47;47].

Lemma main_scheme body : fst (cut_first (N.eqb 35) (amqp_scheme ++ body)) = amqp_scheme ++ fst (cut_first (N.eqb 35) body).
Proof. cbn. destruct (cut_first (N.eqb 35) body). reflexivity. Qed.

Lemma amqp_read_some body u : amqp_read (amqp_scheme ++ body) = Some u ->
  exists user host path, parse_authority (fst (cut_first stop body)) = Some (user, host) /\ uri_of user host path = Some u.
Proof.
  unfold amqp_read. destruct (existsb (N.eqb 32) _); [discriminate|].
  pose proof (main_scheme body) as Hm. destruct (cut_first (N.eqb 35) (amqp_scheme ++ body)) as [main fragment]. cbn [fst] in Hm. subst main.
  destruct (existsb ctl _); [discriminate|]. destruct (negb _); [discriminate|].
  cbn [amqp_scheme app]. set (m := fst (cut_first (N.eqb 35) body)).
  destruct (cut_first (N.eqb 63) m) as [r q] eqn:Hr. destruct (cut_first (N.eqb 47) r) as [a t] eqn:Ha.
  assert (fst (cut_first stop body) = a) as ->.
  { transitivity (fst (cut_first (N.eqb 47) (fst (cut_first (N.eqb 63) m)))); [|rewrite Hr; cbn; rewrite Ha; reflexivity].
    unfold m. rewrite !cut_fst_or. f_equal. clear. induction body as [|c s IH]; [reflexivity|]. cbn [cut_first].
    unfold stop at 1. rewrite !(N.eqb_sym c). rewrite <- orb_assoc. destruct ((35 =? c) || ((63 =? c) || (47 =? c)))%bool; [reflexivity|]. rewrite IH. reflexivity. }
  destruct (parse_authority a) as [[user host]|]; [|discriminate].
  destruct (unescape false _) as [path|]; [|discriminate]. intros H. exists user, host, path. split; [reflexivity|exact H].
Qed.

Lemma uri_of_user user host path u : uri_of user host path = Some u ->
  am_user u = (match user with Some (u, _) => u | None => guest end) /\
  am_password u = (match user with Some (_, Some p) => p | _ => guest end).
Proof.
  unfold uri_of. destruct (split_host_port host) as [h p]. destruct (match p with [] => _ | _ => _ end); [|discriminate].
  intros H. injection H as <-. split; reflexivity.
Qed.

Lemma cut_stop_fst body : forall a r, cut_first stop body = (a, r) -> fst (cut_first stop body) = a.
Proof. intros a r ->. reflexivity. Qed.

(** ** User and password *)
Lemma user_password U P rest u : amqp_read (amqp_scheme ++ U ++ [58] ++ P ++ [64] ++ rest) = Some u ->
  existsb (N.eqb 64) (fst (cut_first stop rest)) = false ->
  am_user u = U -> am_password u = P ->
  existsb stop (U ++ 58 :: P) = false /\ forallb url_userinfo (U ++ 58 :: P) = true /\ ~ In 58 U /\ ~ In 37 U /\ ~ In 37 P.
Proof.
  intros H Hrest HU HP. apply amqp_read_some in H as (user & host & path & Ha & Hu). apply uri_of_user in Hu as [Eu Ep].
  rewrite HU in Eu. rewrite HP in Ep. clear HU HP u.
  set (W := U ++ 58 :: P) in *.
  assert (EW : U ++ [58] ++ P ++ [64] ++ rest = W ++ 64 :: rest) by (unfold W; rewrite <- app_assoc; reflexivity).
  rewrite EW in Ha. clear EW.
  assert (HW : length W = S (length U + length P)) by (unfold W; rewrite app_length; cbn [length]; lia).
  destruct (existsb stop W) eqn:Hs.
  - exfalso. apply existsb_split in Hs as (a & c & b & E & Hna & Hc).
    rewrite E, <- app_assoc in Ha. cbn [app] in Ha. rewrite (cut_first_app stop a c _ Hna Hc) in Ha. cbn [fst] in Ha.
    unfold parse_authority in Ha. destruct (cut_last (N.eqb 64) a) as [[info h]|] eqn:Hl.
    + apply cut_last_cases in Hl as (_ & d & Hd & ->).
      destruct (parse_host h); [|discriminate]. destruct (negb _); [discriminate|].
      destruct (cut_first (N.eqb 58) info) as [u0 p0] eqn:Hi. apply cut_first_cases in Hi as [Hn Hi].
      destruct (unescape false u0) as [u1|] eqn:H1; [|discriminate]. apply unescape_short in H1.
      rewrite E in HW. rewrite !app_length in HW. cbn [length] in HW. destruct p0 as [p0|].
      * destruct Hi as (x & _ & ->). destruct (unescape false p0) as [p1|] eqn:H2; [|discriminate]. apply unescape_short in H2.
        cbn [option_map] in Ha. injection Ha as <- <-. subst u1 p1. rewrite app_length in HW. cbn [length] in HW. lia.
      * subst info. injection Ha as <- <-. subst u1.
        assert (Hd' : d = 64) by lia. subst d.
        assert (Hnth : nth (length U) W 0 = 58) by (unfold W; rewrite app_nth2 by lia; rewrite Nat.sub_diag; reflexivity).
        rewrite E in Hnth. rewrite app_nth1 in Hnth by (rewrite app_length; cbn [length]; lia).
        destruct (Nat.eq_dec (length U) (length u0)) as [El|El].
        -- rewrite app_nth2 in Hnth by lia. rewrite El, Nat.sub_diag in Hnth. discriminate Hnth.
        -- rewrite app_nth1 in Hnth by lia.
           assert (In 58 u0) as Hin by (rewrite <- Hnth; apply nth_In; lia).
           assert (existsb (N.eqb 58) u0 = true) as Ht by (apply existsb_exists; exists 58; split; [exact Hin|reflexivity]).
           congruence.
    + destruct (parse_host a); [|discriminate]. cbn [option_map] in Ha. injection Ha as <- <-. subst U P.
      assert (Hb : existsb stop W = false) by (vm_compute; reflexivity). rewrite E in Hb.
      rewrite existsb_app in Hb. cbn [existsb] in Hb. rewrite Hc in Hb. lia.
  - destruct (cut_first stop rest) as [ra rr] eqn:Hr. cbn [fst] in Hrest.
    assert (Hf : fst (cut_first stop (W ++ 64 :: rest)) = W ++ 64 :: ra).
    { clear - Hs Hr. revert Hs. induction W as [|x W IH]; intros Hs.
      - cbn [app cut_first]. change (stop 64) with false. cbn iota. rewrite Hr. reflexivity.
      - cbn [existsb] in Hs. apply orb_false_iff in Hs as [Hx Hs]. cbn [app cut_first]. rewrite Hx. specialize (IH Hs).
        destruct (cut_first stop (W ++ 64 :: rest)) as [a r]. cbn [fst] in *. subst a. reflexivity. }
    rewrite Hf in Ha. clear Hf. unfold parse_authority in Ha. rewrite (cut_last_app (N.eqb 64) W 64 ra Hrest eq_refl) in Ha.
    destruct (parse_host ra); [|discriminate]. destruct (forallb url_userinfo W) eqn:Hv; [|discriminate]. cbn [negb] in Ha.
    split; [reflexivity|]. split; [reflexivity|].
    destruct (existsb (N.eqb 58) U) eqn:Hc.
    + exfalso. apply existsb_split in Hc as (a & c & b & E & Hna & Hc). unfold W in Ha. rewrite E, <- app_assoc in Ha. cbn [app] in Ha.
      rewrite (cut_first_app (N.eqb 58) a c _ Hna Hc) in Ha.
      destruct (unescape false a) as [u1|] eqn:H1; [|discriminate]. apply unescape_short in H1.
      destruct (unescape false _) as [p1|]; [|discriminate]. cbn [option_map] in Ha. injection Ha as <- <-.
      rewrite E in Eu. apply (f_equal (@length N)) in Eu. rewrite app_length in Eu. cbn [length] in Eu. lia.
    + unfold W in Ha. rewrite (cut_first_app (N.eqb 58) U 58 P Hc eq_refl) in Ha.
      destruct (unescape false U) as [u1|] eqn:H1; [|discriminate].
      destruct (unescape false P) as [p1|] eqn:H2; [|discriminate]. cbn [option_map] in Ha. injection Ha as <- <-. subst u1 p1.
      split; [|split; eapply unescape_same; eassumption].
      intros Hin. assert (existsb (N.eqb 58) U = true) as Ht by (apply existsb_exists; exists 58; split; [exact Hin|reflexivity]). congruence.
Qed.

(** ** The other direction *)
Lemma In_existsb x (s : gostr) : existsb (N.eqb x) s = false <-> ~ In x s.
Proof.
  split.
  - intros H Hin. assert (existsb (N.eqb x) s = true) as Ht by (apply existsb_exists; exists x; split; [exact Hin|apply N.eqb_refl]). congruence.
  - intros H. destruct (existsb (N.eqb x) s) eqn:E; [|reflexivity]. apply existsb_exists in E as (y & Hy & E). apply N.eqb_eq in E. subst y. contradiction.
Qed.
Lemma Forall_existsb p (s : gostr) : Forall (fun c => p c = false) s -> existsb p s = false.
Proof. induction 1 as [|c s Hc Hs IH]; cbn; [reflexivity|]. rewrite Hc. exact IH. Qed.

(** a byte that none of the readers takes for anything else *)
Definition tame (c : N) : Prop := url_userinfo c = true /\ c <> 37.
Lemma alnum_lod c : url_alnum c = true <-> letter_or_digit c.
Proof. unfold url_alnum, letter_or_digit. lia. Qed.
Lemma tame_bare c : tame c <-> (letter_or_digit c \/ In c (text "-._:~!$&'()*+,;=@")).
Proof.
  unfold tame, url_userinfo. rewrite <- alnum_lod.
  change (text "-._:~!$&'()*+,;=@") with ([45;46;95;58;126;33;36;38;39;40;41;42;43;44;59;61;64] : gostr).
  cbn [existsb In]. destruct (url_alnum c) eqn:E; cbn [orb].
  - split; [left; reflexivity|]. intros _. split; [reflexivity|]. intros ->. discriminate E.
  - lia.
Qed.

Lemma tame_range c : tame c -> 33 <= c <= 126 /\ c <> 35 /\ c <> 63 /\ c <> 47 /\ c <> 37.
Proof.
  unfold tame, url_userinfo, url_alnum. cbn [existsb]. lia.
Qed.

Definition host_char (c : N) : Prop := letter_or_digit c \/ In c (text ".-_").
Lemma host_char_facts c : host_char c -> url_host_char c = true /\ 33 <= c <= 126 /\ c <> 35 /\ c <> 63 /\ c <> 47 /\ c <> 37 /\ c <> 64 /\ c <> 58 /\ c <> 91 /\ c <> 93.
Proof.
  unfold host_char, url_host_char. rewrite <- alnum_lod. change (text ".-_") with ([46;45;95] : gostr). unfold url_alnum. cbn [existsb In].
  intros H. split; lia.
Qed.

Lemma userinfo_range c : url_userinfo c = true -> 33 <= c <= 126 /\ c <> 35 /\ c <> 63 /\ c <> 47.
Proof. unfold url_userinfo, url_alnum. cbn [existsb]. lia. Qed.
Lemma read_any U P U' P' H T :
  Forall (fun c => url_userinfo c = true) U -> ~ In 58 U -> Forall (fun c => url_userinfo c = true) P ->
  unescape false U = Some U' -> unescape false P = Some P' -> Forall host_char H -> Forall (fun c => 48 <= c <= 57) T ->
  (digits_val T < 2 ^ 31)%Z ->
  amqp_read (amqp_scheme ++ U ++ [58] ++ P ++ [64] ++ H ++ [58] ++ T ++ [47]) = Some (mkUri U' P' (match H with [] => localhost | _ => H end) (match T with [] => 5672%Z | _ => digits_val T end) [47]).
Proof.
  intros HU Hc HP HUu HPu HH HT Hb.
  set (ht := H ++ 58 :: T). set (auth := (U ++ 58 :: P) ++ 64 :: ht).
  assert (E : U ++ [58] ++ P ++ [64] ++ H ++ [58] ++ T ++ [47] = auth ++ [47]).
  { unfold auth, ht. cbn [app]. rewrite <- !app_assoc. cbn [app]. rewrite <- !app_assoc. reflexivity. }
  rewrite E. clear E.
  assert (Hdig : forall c, 48 <= c <= 57 -> host_char c) by (intros c Hc'; left; unfold letter_or_digit; lia).
  assert (Hauth : Forall (fun c => 33 <= c <= 126 /\ c <> 35 /\ c <> 63 /\ c <> 47) auth).
  { unfold auth, ht. repeat first [apply Forall_cons; [lia|] | apply Forall_app; split].
    - eapply Forall_impl; [exact userinfo_range|exact HU].
    - eapply Forall_impl; [exact userinfo_range|exact HP].
    - eapply Forall_impl; [|exact HH]. intros c Hh. apply host_char_facts in Hh. tauto.
    - eapply Forall_impl; [|exact HT]. cbv beta. intros c Hd. lia. }
  assert (Hno : forall x, (x < 33 \/ 126 < x \/ x = 35 \/ x = 63 \/ x = 47) -> existsb (N.eqb x) auth = false).
  { intros x Hx. apply Forall_existsb. eapply Forall_impl; [|exact Hauth]. cbv beta. lia. }
  unfold amqp_read.
  assert (H32 : existsb (N.eqb 32) (amqp_scheme ++ auth ++ [47]) = false) by (rewrite !existsb_app, Hno by lia; reflexivity).
  rewrite H32. clear H32.
  assert (H35 : cut_first (N.eqb 35) (amqp_scheme ++ auth ++ [47]) = (amqp_scheme ++ auth ++ [47], None)).
  { apply cut_first_none. rewrite !existsb_app, Hno by lia. reflexivity. }
  rewrite H35. clear H35. cbv beta iota.
  assert (Hctl : existsb ctl (amqp_scheme ++ auth ++ [47]) = false).
  { rewrite !existsb_app. rewrite (Forall_existsb ctl auth); [reflexivity|]. eapply Forall_impl; [|exact Hauth]. cbv beta. unfold ctl. lia. }
  rewrite Hctl. clear Hctl. cbn [unescape negb]. cbn [amqp_scheme app].
  rewrite (cut_first_none (N.eqb 63) (auth ++ [47])) by (rewrite existsb_app, Hno by lia; reflexivity).
  rewrite (cut_first_app (N.eqb 47) auth 47 []) by (first [apply Hno; lia|reflexivity]).
  assert (Hht : Forall (fun c => url_host_char c = true /\ c <> 37) ht).
  { unfold ht. apply Forall_app. split; [|constructor; [split; [reflexivity|discriminate]|]].
    - eapply Forall_impl; [|exact HH]. intros c Hh. apply host_char_facts in Hh. tauto.
    - eapply Forall_impl; [|exact HT]. cbv beta. intros c Hd. apply Hdig, host_char_facts in Hd. tauto. }
  assert (Hd : forallb is_digit T = true).
  { apply forallb_forall. intros c Hin. rewrite Forall_forall in HT. specialize (HT c Hin). unfold is_digit. lia. }
  assert (H58 : cut_last (N.eqb 58) ht = Some (H, T)).
  { apply cut_last_app; [|reflexivity]. apply In_existsb. intros Hin. rewrite Forall_forall in HT. specialize (HT _ Hin). lia. }
  assert (H91 : forall A (x y : A) h, (exists t, h = H ++ 58 :: t) -> match h with 91 :: _ => x | _ => y end = y).
  { intros A x y h [t ->]. destruct H as [|c H]; [reflexivity|]. apply Forall_cons_iff in HH as [Hh _]. apply host_char_facts in Hh.
    cbn [app]. destruct c as [|p]; [reflexivity|]. do 7 (destruct p as [p|p|]; try reflexivity). lia. }
  assert (Hph : parse_host ht = Some ht).
  { unfold parse_host. rewrite H91 by (exists T; reflexivity). rewrite H58, Hd. apply unescape_host. exact Hht. }
  assert (Hpa : parse_authority auth = Some (Some (U', Some P'), ht)).
  { unfold parse_authority, auth. rewrite (cut_last_app (N.eqb 64) (U ++ 58 :: P) 64 ht).
    2:{ apply In_existsb. intros Hin. unfold ht in Hin. apply in_app_or in Hin as [Hin|[Hin|Hin]]; [|lia|].
        - rewrite Forall_forall in HH. specialize (HH _ Hin). apply host_char_facts in HH. tauto.
        - rewrite Forall_forall in HT. specialize (HT _ Hin). lia. }
    2:{ reflexivity. }
    rewrite Hph.
    assert (Hv : forallb url_userinfo (U ++ 58 :: P) = true).
    { rewrite forallb_app. cbn [forallb]. rewrite !(proj2 (forallb_forall _ _)); [reflexivity| |];
        intros c Hin; [rewrite Forall_forall in HP; exact (HP c Hin)|rewrite Forall_forall in HU; exact (HU c Hin)]. }
    rewrite Hv. cbn [negb]. rewrite (cut_first_app (N.eqb 58) U 58 P) by (first [apply In_existsb; exact Hc|reflexivity]).
    rewrite HUu, HPu. reflexivity. }
  rewrite Hpa. cbn [unescape N.eqb Pos.eqb andb option_map]. unfold uri_of, split_host_port. rewrite H58, Hd.
  assert (Hsb : strip_brackets H = H).
  { clear - HH. unfold strip_brackets. destruct H as [|c H]; [reflexivity|]. apply Forall_cons_iff in HH as [Hh _]. apply host_char_facts in Hh.
    destruct c as [|p]; [reflexivity|]. do 7 (destruct p as [p|p|]; try reflexivity). lia. }
  rewrite Hsb. destruct T as [|t0 T']; [reflexivity|]. unfold parse_port.
  replace (digits_val (t0 :: T') <? 2 ^ 31)%Z with true by lia. reflexivity.
Qed.
Lemma read_user U P U' P' H T :
  Forall (fun c => url_userinfo c = true) U -> ~ In 58 U -> Forall (fun c => url_userinfo c = true) P ->
  unescape false U = Some U' -> unescape false P = Some P' -> H <> [] -> Forall host_char H -> T <> [] -> Forall (fun c => 48 <= c <= 57) T ->
  (digits_val T < 2 ^ 31)%Z ->
  amqp_read (amqp_scheme ++ U ++ [58] ++ P ++ [64] ++ H ++ [58] ++ T ++ [47]) = Some (mkUri U' P' H (digits_val T) [47]).
Proof.
  intros. rewrite (read_any U P U' P' H T) by assumption. destruct H; [congruence|]. destruct T; [congruence|]. reflexivity.
Qed.
Lemma read_bare U P H T :
  Forall tame U -> ~ In 58 U -> Forall tame P -> H <> [] -> Forall host_char H -> T <> [] -> Forall (fun c => 48 <= c <= 57) T ->
  (digits_val T < 2 ^ 31)%Z ->
  amqp_read (amqp_scheme ++ U ++ [58] ++ P ++ [64] ++ H ++ [58] ++ T ++ [47]) = Some (mkUri U P H (digits_val T) [47]).
Proof.
  intros HU Hc HP HHn HH HTn HT Hb.
  apply read_user; try assumption.
  - eapply Forall_impl; [|exact HU]. intros c [Hx _]. exact Hx.
  - eapply Forall_impl; [|exact HP]. intros c [Hx _]. exact Hx.
  - apply unescape_bare. intros Hin. rewrite Forall_forall in HU. exact (proj2 (HU _ Hin) eq_refl).
  - apply unescape_bare. intros Hin. rewrite Forall_forall in HP. exact (proj2 (HP _ Hin) eq_refl).
Qed.

(** ** Percent-encoded settings *)
Lemma hex_digit_val h n : hex_digit h n -> hex_val h = Some n /\ url_userinfo h = true /\ h <> 58.
Proof.
  unfold hex_digit, hex_val, url_userinfo, url_alnum. intros H.
  assert (Hh : ((48 <=? h) && (h <=? 57))%bool = true /\ n = h - 48 \/
    ((48 <=? h) && (h <=? 57))%bool = false /\ (((97 <=? h) && (h <=? 102))%bool = true /\ n = h - 87 \/
    ((97 <=? h) && (h <=? 102))%bool = false /\ ((65 <=? h) && (h <=? 70))%bool = true /\ n = h - 55)) by lia.
  split; [|lia]. destruct Hh as [[-> ->]|[-> [[-> ->]|[-> [-> ->]]]]]; reflexivity.
Qed.
Lemma stands_for_unescape v w : stands_for v w ->
  unescape false v = Some w /\ Forall (fun c => url_userinfo c = true) v.
Proof.
  induction 1 as [|c v w Hc Hw [IH1 IH2]|c h l v w Hh Hl Hc Hw [IH1 IH2]].
  - split; [reflexivity|constructor].
  - apply tame_bare in Hc as [Hc Hn]. split; [|constructor; assumption]. cbn [unescape].
    destruct (N.eqb_spec c 37) as [->|_]; [congruence|]. cbn [andb]. rewrite IH1. reflexivity.
  - apply hex_digit_val in Hh as (Hh & Hh2 & _). apply hex_digit_val in Hl as (Hl & Hl2 & _). split.
    + cbn [unescape N.eqb Pos.eqb]. rewrite Hh, Hl. cbn [andb]. rewrite IH1. cbn [option_map]. do 2 f_equal.
      rewrite (N.div_mod c 16) at 3 by discriminate. reflexivity.
    + constructor; [reflexivity|]. constructor; [exact Hh2|]. constructor; [exact Hl2|exact IH2].
Qed.

(** ** Other hosts *)
Lemma read_shape U P U' P' H H' T :
  Forall (fun c => url_userinfo c = true) U -> ~ In 58 U -> Forall (fun c => url_userinfo c = true) P ->
  unescape false U = Some U' -> unescape false P = Some P' ->
  Forall (fun c => 33 <= c <= 126 /\ c <> 35 /\ c <> 63 /\ c <> 47 /\ c <> 64) H -> T <> [] -> Forall (fun c => 48 <= c <= 57) T ->
  parse_host (H ++ 58 :: T) = Some (H ++ 58 :: T) -> strip_brackets H = H' -> H' <> [] ->
  (digits_val T < 2 ^ 31)%Z ->
  amqp_read (amqp_scheme ++ U ++ [58] ++ P ++ [64] ++ H ++ [58] ++ T ++ [47]) = Some (mkUri U' P' H' (digits_val T) [47]).
Proof.
  intros HU Hc HP HUu HPu HH HTn HT Hph Hsb Hne Hb.
  set (ht := H ++ 58 :: T) in *. set (auth := (U ++ 58 :: P) ++ 64 :: ht).
  assert (E : U ++ [58] ++ P ++ [64] ++ H ++ [58] ++ T ++ [47] = auth ++ [47]).
  { unfold auth, ht. cbn [app]. rewrite <- !app_assoc. cbn [app]. rewrite <- !app_assoc. reflexivity. }
  rewrite E. clear E.
  assert (Hauth : Forall (fun c => 33 <= c <= 126 /\ c <> 35 /\ c <> 63 /\ c <> 47) auth).
  { unfold auth, ht. repeat first [apply Forall_cons; [lia|] | apply Forall_app; split].
    - eapply Forall_impl; [exact userinfo_range|exact HU].
    - eapply Forall_impl; [exact userinfo_range|exact HP].
    - eapply Forall_impl; [|exact HH]. cbv beta. intros c Hh. lia.
    - eapply Forall_impl; [|exact HT]. cbv beta. intros c Hd. lia. }
  assert (Hno : forall x, (x < 33 \/ 126 < x \/ x = 35 \/ x = 63 \/ x = 47) -> existsb (N.eqb x) auth = false).
  { intros x Hx. apply Forall_existsb. eapply Forall_impl; [|exact Hauth]. cbv beta. lia. }
  unfold amqp_read.
  assert (H32 : existsb (N.eqb 32) (amqp_scheme ++ auth ++ [47]) = false) by (rewrite !existsb_app, Hno by lia; reflexivity).
  rewrite H32. clear H32.
  assert (H35 : cut_first (N.eqb 35) (amqp_scheme ++ auth ++ [47]) = (amqp_scheme ++ auth ++ [47], None)).
  { apply cut_first_none. rewrite !existsb_app, Hno by lia. reflexivity. }
  rewrite H35. clear H35. cbv beta iota.
  assert (Hctl : existsb ctl (amqp_scheme ++ auth ++ [47]) = false).
  { rewrite !existsb_app. rewrite (Forall_existsb ctl auth); [reflexivity|]. eapply Forall_impl; [|exact Hauth]. cbv beta. unfold ctl. lia. }
  rewrite Hctl. clear Hctl. cbn [unescape negb]. cbn [amqp_scheme app].
  rewrite (cut_first_none (N.eqb 63) (auth ++ [47])) by (rewrite existsb_app, Hno by lia; reflexivity).
  rewrite (cut_first_app (N.eqb 47) auth 47 []) by (first [apply Hno; lia|reflexivity]).
  assert (Hd : forallb is_digit T = true).
  { apply forallb_forall. intros c Hin. rewrite Forall_forall in HT. specialize (HT c Hin). unfold is_digit. lia. }
  assert (H58 : cut_last (N.eqb 58) ht = Some (H, T)).
  { apply cut_last_app; [|reflexivity]. apply In_existsb. intros Hin. rewrite Forall_forall in HT. specialize (HT _ Hin). lia. }
  assert (Hpa : parse_authority auth = Some (Some (U', Some P'), ht)).
  { unfold parse_authority, auth. rewrite (cut_last_app (N.eqb 64) (U ++ 58 :: P) 64 ht).
    2:{ apply In_existsb. intros Hin. unfold ht in Hin. apply in_app_or in Hin as [Hin|[Hin|Hin]]; [|lia|].
        - rewrite Forall_forall in HH. specialize (HH _ Hin). cbv beta in HH. tauto.
        - rewrite Forall_forall in HT. specialize (HT _ Hin). lia. }
    2:{ reflexivity. }
    rewrite Hph.
    assert (Hv : forallb url_userinfo (U ++ 58 :: P) = true).
    { rewrite forallb_app. cbn [forallb]. rewrite !(proj2 (forallb_forall _ _)); [reflexivity| |];
        intros c Hin; [rewrite Forall_forall in HP; exact (HP c Hin)|rewrite Forall_forall in HU; exact (HU c Hin)]. }
    rewrite Hv. cbn [negb]. rewrite (cut_first_app (N.eqb 58) U 58 P) by (first [apply In_existsb; exact Hc|reflexivity]).
    rewrite HUu, HPu. reflexivity. }
  rewrite Hpa. cbn [unescape N.eqb Pos.eqb andb option_map]. unfold uri_of, split_host_port. rewrite H58, Hd, Hsb.
  destruct T as [|t0 T']; [congruence|]. unfold parse_port.
  replace (digits_val (t0 :: T') <? 2 ^ 31)%Z with true by lia. destruct H'; [congruence|reflexivity].
Qed.

Lemma ip6_char_facts c : (48 <= c <= 57) \/ (65 <= c <= 70) \/ (97 <= c <= 102) \/ c = 58 \/ c = 46 ->
  url_host_char c = true /\ 33 <= c <= 126 /\ c <> 35 /\ c <> 63 /\ c <> 47 /\ c <> 37 /\ c <> 64 /\ c <> 91 /\ c <> 93.
Proof. intros H. unfold url_host_char, url_alnum. cbn [existsb]. lia. Qed.

Lemma not_bracket {A} (x y : A) s : ~ In 91 s -> match s with 91 :: _ => x | _ => y end = y.
Proof.
  destruct s as [|c s]; [reflexivity|]. intros H. assert (Hc : c <> 91) by (intros ->; apply H; left; reflexivity). clear H.
  destruct c as [|p]; [reflexivity|]. do 7 (destruct p as [p|p|]; try reflexivity). congruence.
Qed.
Lemma not_bracket_t {A} (x : gostr -> A) y s : ~ In 91 s -> match s with 91 :: t => x t | _ => y end = y.
Proof.
  destruct s as [|c s]; [reflexivity|]. intros H. assert (Hc : c <> 91) by (intros ->; apply H; left; reflexivity). clear H.
  destruct c as [|p]; [reflexivity|]. do 7 (destruct p as [p|p|]; try reflexivity). congruence.
Qed.

Lemma ip6_plain v T : Forall (fun c => (48 <= c <= 57) \/ (65 <= c <= 70) \/ (97 <= c <= 102) \/ c = 58 \/ c = 46) v ->
  Forall (fun c => 48 <= c <= 57) T ->
  parse_host (v ++ 58 :: T) = Some (v ++ 58 :: T) /\ strip_brackets v = v.
Proof.
  intros Hv HT. assert (H91 : ~ In 91 v) by (intros Hin; rewrite Forall_forall in Hv; specialize (Hv _ Hin); cbv beta in Hv; lia).
  assert (H91' : ~ In 91 (v ++ 58 :: T)).
  { intros Hin. apply in_app_or in Hin as [Hin|[Hin|Hin]]; [exact (H91 Hin)|discriminate|]. rewrite Forall_forall in HT. specialize (HT _ Hin). lia. }
  split; [|unfold strip_brackets; rewrite not_bracket_t by exact H91; reflexivity].
  unfold parse_host. rewrite not_bracket by exact H91'. rewrite cut_last_app; [|apply In_existsb; intros Hin; rewrite Forall_forall in HT; specialize (HT _ Hin); lia|reflexivity].
  assert (Hd : forallb is_digit T = true).
  { apply forallb_forall. intros c Hin. rewrite Forall_forall in HT. specialize (HT c Hin). unfold is_digit. lia. }
  rewrite Hd. apply unescape_host. apply Forall_app. split; [|constructor; [split; [reflexivity|discriminate]|]].
  - eapply Forall_impl; [|exact Hv]. intros c Hc. apply ip6_char_facts in Hc. tauto.
  - eapply Forall_impl; [|exact HT]. cbv beta. intros c Hc. assert (Hc' := ip6_char_facts c ltac:(lia)). tauto.
Qed.
Lemma ip6_bracketed v T : Forall (fun c => (48 <= c <= 57) \/ (65 <= c <= 70) \/ (97 <= c <= 102) \/ c = 58 \/ c = 46) v ->
  Forall (fun c => 48 <= c <= 57) T ->
  parse_host ((91 :: v ++ [93]) ++ 58 :: T) = Some ((91 :: v ++ [93]) ++ 58 :: T) /\ strip_brackets (91 :: v ++ [93]) = v.
Proof.
  intros Hv HT. split; [|unfold strip_brackets; rewrite cut_last_app by reflexivity; reflexivity].
  assert (Hd : forallb is_digit T = true).
  { apply forallb_forall. intros c Hin. rewrite Forall_forall in HT. specialize (HT c Hin). unfold is_digit. lia. }
  assert (E : (91 :: v ++ [93]) ++ 58 :: T = (91 :: v) ++ 93 :: 58 :: T) by (cbn [app]; rewrite <- app_assoc; reflexivity).
  unfold parse_host. rewrite E. cbn [app]. change (91 :: v ++ 93 :: 58 :: T) with ((91 :: v) ++ 93 :: 58 :: T).
  rewrite cut_last_app; [|apply In_existsb; intros [Hin|Hin]; [discriminate|rewrite Forall_forall in HT; specialize (HT _ Hin); lia]|reflexivity].
  cbn [optional_port N.eqb Pos.eqb andb]. rewrite Hd. apply unescape_host. apply Forall_app. split; [constructor; [split; [reflexivity|discriminate]|]|].
  - eapply Forall_impl; [|exact Hv]. intros c Hc. apply ip6_char_facts in Hc. tauto.
  - constructor; [split; [reflexivity|discriminate]|]. constructor; [split; [reflexivity|discriminate]|].
    eapply Forall_impl; [|exact HT]. cbv beta. intros c Hc. assert (Hc' := ip6_char_facts c ltac:(lia)). tauto.
Qed.
