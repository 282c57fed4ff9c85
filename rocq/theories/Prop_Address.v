(** * Prop_Address: C152 — the receiver listens at the host and port of its
    configuration. *)
From Coq Require Import String List Lia Bool ZifyBool ZifyN ZifyNat.
From Verif Require Import GoBase Float64 Storage Connectors Amqp Config Main Address Spec_Storage Spec_Amqp Spec_Address StorageFacts AmqpFacts.
Import ListNotations.
Local Open Scope N_scope.
Local Open Scope list_scope.

Lemma has_no x (s : gostr) : existsb (N.eqb x) s = false <-> ~ In x s.
Proof. exact (In_existsb x s). Qed.
Lemma after_cases c s : match after c s with Some t => s = c :: t | None => forall t, s <> c :: t end.
Proof.
  unfold after. destruct s as [|d t]; [discriminate|]. destruct (N.eqb_spec d c) as [->|Hd]; [reflexivity|]. intros t' [= E _]. contradiction.
Qed.

(** ** C152: exactly which addresses are taken, and as what. *)
Theorem C152_address_read_exactly : forall a h p, split_hostport a = Some (h, p) <-> written a h p.
Proof.
  intros a h p. unfold split_hostport. split.
  - destruct (cut_last (N.eqb 58) a) as [[b q]|] eqn:Hl; [|discriminate].
    apply cut_last_cases in Hl. destruct Hl as (Hq & c & Hc & Ha). apply N.eqb_eq in Hc. subst c. apply has_no in Hq.
    pose proof (after_cases 91 a) as Et. destruct (after 91 a) as [t|].
    + destruct (cut_first (N.eqb 93) t) as [h' [r|]] eqn:Hf; [|discriminate].
      apply cut_first_cases in Hf. destruct Hf as (Hh & c & Hc & Ht). apply N.eqb_eq in Hc. subst c. apply has_no in Hh.
      pose proof (after_cases 58 r) as Er. destruct (after 58 r) as [p'|]; [|discriminate].
      destruct (existsb (N.eqb 58) p') eqn:H1; [discriminate|]. destruct (existsb (N.eqb 91) t) eqn:H2; [discriminate|].
      destruct (existsb (N.eqb 93) r) eqn:H3; [discriminate|]. intros [= <- <-]. apply has_no in H1, H2, H3. subst t r.
      assert (p' = q) as ->.
      { assert (E : cut_last (N.eqb 58) a = Some (91 :: h' ++ [93], p')).
        { rewrite Et. replace (91 :: h' ++ 93 :: 58 :: p') with ((91 :: h' ++ [93]) ++ 58 :: p') by (cbn [app]; rewrite <- app_assoc; reflexivity).
          apply cut_last_app; [apply has_no; exact H1|reflexivity]. }
        assert (E2 : cut_last (N.eqb 58) a = Some (b, q)) by (rewrite Ha; apply cut_last_app; [apply has_no; exact Hq|reflexivity]).
        congruence. }
      rewrite Et. apply wr_bracketed.
      * split; [|exact Hh]. intros Hi. apply H2. apply in_or_app. left. exact Hi.
      * split; [exact H1|]. split; intros Hi; [apply H2; apply in_or_app; right; right; right; exact Hi|apply H3; right; exact Hi].
    + destruct (existsb (N.eqb 58) b) eqn:H1; [discriminate|]. destruct (existsb (N.eqb 91) a) eqn:H2; [discriminate|].
      destruct (existsb (N.eqb 93) a) eqn:H3; [discriminate|]. intros [= <- <-]. apply has_no in H1, H2, H3. subst a.
      apply wr_plain; (split; [assumption|]); split; intros Hi;
        first [apply H2; apply in_or_app; first [left; exact Hi|right; right; exact Hi]|apply H3; apply in_or_app; first [left; exact Hi|right; right; exact Hi]].
  - intros H. destruct H as [h p (H1 & H2 & H3) (H4 & H5 & H6)|h p (H2 & H3) (H4 & H5 & H6)]; cbn [app].
    + rewrite (cut_last_app (N.eqb 58) h 58 p) by (first [apply has_no; assumption|reflexivity]).
      pose proof (after_cases 91 (h ++ 58 :: p)) as Et. destruct (after 91 (h ++ 58 :: p)) as [t|].
      * exfalso. destruct h as [|c h]; [discriminate Et|]. injection Et as -> _. apply H2. left. reflexivity.
      * rewrite (proj2 (has_no 58 h) H1).
        rewrite (proj2 (has_no 91 (h ++ 58 :: p))) by (intros Hi; apply in_app_or in Hi; destruct Hi as [Hi|[Hi|Hi]]; [exact (H2 Hi)|discriminate Hi|exact (H5 Hi)]).
        rewrite (proj2 (has_no 93 (h ++ 58 :: p))) by (intros Hi; apply in_app_or in Hi; destruct Hi as [Hi|[Hi|Hi]]; [exact (H3 Hi)|discriminate Hi|exact (H6 Hi)]).
        reflexivity.
    + assert (E : cut_last (N.eqb 58) (91 :: h ++ 93 :: 58 :: p) = Some (91 :: h ++ [93], p)).
      { replace (91 :: h ++ 93 :: 58 :: p) with ((91 :: h ++ [93]) ++ 58 :: p) by (cbn [app]; rewrite <- app_assoc; reflexivity).
        apply cut_last_app; [apply has_no; exact H4|reflexivity]. }
      rewrite E. clear E. change (after 91 (91 :: h ++ 93 :: 58 :: p)) with (Some (h ++ 93 :: 58 :: p)). cbv beta iota.
      rewrite (cut_first_app (N.eqb 93) h 93 (58 :: p)) by (first [apply has_no; assumption|reflexivity]).
      change (after 58 (58 :: p)) with (Some p). cbv beta iota. rewrite (proj2 (has_no 58 p) H4).
      rewrite (proj2 (has_no 91 (h ++ 93 :: 58 :: p))) by (intros Hi; apply in_app_or in Hi; destruct Hi as [Hi|[Hi|[Hi|Hi]]]; [exact (H2 Hi)|discriminate Hi|discriminate Hi|exact (H5 Hi)]).
      rewrite (proj2 (has_no 93 (58 :: p))) by (intros [Hi|Hi]; [discriminate Hi|exact (H6 Hi)]). reflexivity.
Qed.

Lemma started_addr lib new path cfg addr ttl level cs :
  new path = Some cfg -> main_start lib new path = StServe addr ttl level cs ->
  addr = cfHost (cg_settings cfg) ++ [58] ++ cfPort (cg_settings cfg).
Proof. intros Hn. unfold main_start. destruct path; [discriminate|]. rewrite Hn. intros [= <- _ _ _]. reflexivity. Qed.
Lemma colon_split (a b h p : gostr) : a ++ 58 :: b = h ++ 58 :: p -> ~ In 58 b -> ~ In 58 p -> a = h /\ b = p.
Proof.
  intros E Hb Hp. assert (H1 := cut_last_app (N.eqb 58) a 58 b (proj2 (has_no 58 b) Hb) eq_refl).
  assert (H2 := cut_last_app (N.eqb 58) h 58 p (proj2 (has_no 58 p) Hp) eq_refl). rewrite E, H2 in H1. injection H1 as -> ->. split; reflexivity.
Qed.

(** Refuted: with an IPv6 address for host, as the system writes it, the
    receiver does not start. *)
Theorem C152_listens_as_configured_refuted : forall lib store, exists cfg addr ttl level cs,
  cg_store cfg = store /\ cfHost (cg_settings cfg) = text "::1" /\ cfPort (cg_settings cfg) = text "6000" /\
  main_start lib (fun _ => Some cfg) (text "c.yaml") = StServe addr ttl level cs /\ split_hostport addr = None.
Proof.
  intros lib store. exists (mkConfig (mkSettings (text "::1") (text "6000") 10%Z (text "INFO")) store). do 4 eexists.
  split; [reflexivity|]. split; [reflexivity|]. split; [reflexivity|]. split; [reflexivity|]. vm_compute. reflexivity.
Qed.
(** Exactly: host and port reach the listener as they are if and only if neither
    has a colon or a bracket. *)
Theorem C152_listens_as_configured_exactly : forall lib new path cfg addr ttl level cs,
  new path = Some cfg -> main_start lib new path = StServe addr ttl level cs ->
  (split_hostport addr = Some (cfHost (cg_settings cfg), cfPort (cg_settings cfg)) <->
   plain (cfHost (cg_settings cfg)) /\ plain (cfPort (cg_settings cfg))).
Proof.
  intros lib new path cfg addr ttl level cs Hn Hs. rewrite (started_addr _ _ _ _ _ _ _ _ Hn Hs), C152_address_read_exactly.
  generalize (cfHost (cg_settings cfg)) (cfPort (cg_settings cfg)). intros h p. split.
  - intros H. inversion H as [h' p' H1 H2 E|h' p' H1 H2 E]; subst; [split; assumption|].
    exfalso. apply (f_equal (@length N)) in E. cbn [app length] in E. rewrite !app_length in E. cbn [length] in E. lia.
  - intros [H1 H2]. constructor; assumption.
Qed.
(** With an ordinary port the receiver starts exactly if the host has no colon
    and no bracket, or is in brackets, which are taken off. *)
Theorem C152_listens_exactly : forall lib new path cfg addr ttl level cs h p,
  new path = Some cfg -> main_start lib new path = StServe addr ttl level cs -> plain (cfPort (cg_settings cfg)) ->
  (split_hostport addr = Some (h, p) <->
   p = cfPort (cg_settings cfg) /\
   (plain h /\ cfHost (cg_settings cfg) = h \/ no_bracket h /\ cfHost (cg_settings cfg) = [91] ++ h ++ [93])).
Proof.
  intros lib new path cfg addr ttl level cs h p Hn Hs. rewrite (started_addr _ _ _ _ _ _ _ _ Hn Hs), C152_address_read_exactly.
  generalize (cfHost (cg_settings cfg)) (cfPort (cg_settings cfg)). intros H P HP. split.
  - intros Hw. inversion Hw as [h' p' H1 H2 E E1 E2|h' p' H1 H2 E E1 E2]; subst h' p'; cbn [app] in E.
    + destruct (colon_split h p H P E (proj1 H2) (proj1 HP)) as [-> ->]. split; [reflexivity|]. left. split; [exact H1|reflexivity].
    + assert (E' : (91 :: h ++ [93]) ++ 58 :: p = H ++ 58 :: P) by (cbn [app]; rewrite <- app_assoc; exact E).
      destruct (colon_split _ _ _ _ E' (proj1 H2) (proj1 HP)) as [<- ->]. split; [reflexivity|]. right. split; [exact H1|reflexivity].
  - intros [-> [[H1 ->]|[H1 ->]]]; [constructor; assumption|]. cbn [app]. rewrite <- app_assoc. apply wr_bracketed; assumption.
Qed.
(** The shipped configuration, and an IPv6 host in brackets. *)
Example C152_example : plain (text "127.0.0.1") /\ plain (text "6000") /\ no_bracket (text "::1") /\
  split_hostport (text "127.0.0.1:6000") = Some (text "127.0.0.1", text "6000") /\
  split_hostport (text "[::1]:6000") = Some (text "::1", text "6000") /\
  split_hostport (text ":6000") = Some ([], text "6000") /\ split_hostport (text "localhost") = None.
Proof.
  assert (G : forall s, forallb (fun c => negb (c =? 58) && negb (c =? 91) && negb (c =? 93)) s = true -> plain s).
  { intros s H. rewrite forallb_forall in H. repeat split; intros Hi; specialize (H _ Hi); discriminate H. }
  split; [apply G; vm_compute; reflexivity|]. split; [apply G; vm_compute; reflexivity|].
  split; [split; vm_compute; intros H; repeat (destruct H as [H|H]; [discriminate|]); exact H|].
  split; [vm_compute; reflexivity|]. split; [vm_compute; reflexivity|]. split; [vm_compute; reflexivity|]. vm_compute. reflexivity.
Qed.
Print Assumptions C152_address_read_exactly.
Print Assumptions C152_listens_as_configured_refuted.
Print Assumptions C152_listens_as_configured_exactly.
Print Assumptions C152_listens_exactly.
