(** * Prop_Policy: C122–C126 — what the receiver looks at, and what it does not. *)
From Coq Require Import Lia ZifyBool ZifyN ZifyNat.
From Verif Require Import GoBase Crc Float64 SubRecords Records Package Storage Server
  Spec_Bits Spec_Wf Spec_Rec Spec_Pkg Spec_Server Spec_Policy
  BaseFacts PkgFacts PkgFacts3 ServerFacts2 GlueServer WitnessServer PolicyFacts Prop_PkgJson Vectors.

Lemma acts_inj {E : go_env} a b : PActs a = PActs b -> a = b.
Proof. congruence. Qed.

Lemma north_decodes (E : go_env) : exists p l e, decodes_to north p /\ pSFRD p = Some (FSds l) /\ positions l = [e] /\ confirms l = false /\
  credentials l = false /\ map RN l = [1] /\ (exists s l', l = l' ++ [s] /\ SST s = 2) /\ pPID p = 5.
Proof.
  do 3 eexists. split; [apply decodes_to_nil; [exact north_good|]; vm_compute; reflexivity|].
  split; [reflexivity|]. split; [reflexivity|]. split; [reflexivity|]. split; [reflexivity|]. split; [reflexivity|].
  split; [|reflexivity]. eexists _, []. split; reflexivity.
Qed.

(** ** C122: the options of the header are respected (a body that is marked as
    encrypted or compressed is not read as plain records, a packet addressed to
    another node or out of date is not consumed).  Refuted: with every choice of
    options the position of this body is saved and acknowledged. *)
Definition one_position : bytes := firstn 35 (skipn 11 north).
Theorem C122_options_respected_refuted : forall (E : go_env) o spare, options_ok o ->
  good (sealed o 5 1 one_position) /\
  exists rec ack e, process (mkSlice (sealed o 5 1 one_position) spare) = PActs [ASave rec; AWrite ack] /\
    Forall2 loc_stored [e] (nrLocs rec) /\ is_ack ack 5 0 2 [1].
Proof.
  intros E o spare Ho. assert (A : 5 < 2 ^ 16 /\ 1 < 256 /\ bytes_ok one_position = true /\ 0 < blen one_position < 65520) by (vm_compute; intuition congruence).
  destruct A as (A1 & A2 & A3 & A4). split; [exact (sealed_good o 5 1 one_position Ho A1 A2 A3 A4)|].
  rewrite (sealed_process o 5 1 one_position Ho A1 A2 A3 A4 spare).
  assert (Hq : options_ok plain) by (vm_compute; intuition congruence).
  rewrite <- (sealed_process plain 5 1 one_position Hq A1 A2 A3 A4 []).
  assert (Hs : sealed plain 5 1 one_position = north) by (vm_compute; reflexivity). rewrite Hs.
  destruct (process_spec north [] (proj1 north_good) (proj2 north_good)) as (acts & Hp & Ha). rewrite Hp.
  destruct (north_decodes E) as (p & l & e & Hd & Hl & Hpos & Hc & Hcr & Hrn & Hlast & Hpid).
  destruct (accepted_actions north acts p l north_good Ha (Hd []) Hl) as (_ & _ & H).
  unfold app_actions in H. rewrite Hc, Hpos, Hcr in H. destruct H as (rec & ack & -> & Hlocs & _ & _ & _ & _ & _ & _ & _ & _ & svc & Hi & Hsvc).
  exists rec, ack, e. split; [reflexivity|]. split; [exact Hlocs|]. rewrite Hrn, Hpid in Hi.
  destruct Hlast as (s & l' & -> & Hs2). specialize (Hsvc s l' eq_refl). subst svc. rewrite Hs2 in Hi. exact Hi.
Qed.
(** Exactly: packets that differ only in header options are treated alike, for
    every type, number and body. *)
Theorem C122_options_ignored : forall (E : go_env) o o' pid pt body spare spare', options_ok o -> options_ok o' ->
  pid < 2 ^ 16 -> pt < 256 -> bytes_ok body = true -> 0 < blen body < 65520 ->
  process (mkSlice (sealed o pid pt body) spare) = process (mkSlice (sealed o' pid pt body) spare').
Proof.
  intros E o o' pid pt body spare spare' Ho Ho' H1 H2 H3 H4.
  rewrite (sealed_process o pid pt body Ho H1 H2 H3 H4), (sealed_process o' pid pt body Ho' H1 H2 H3 H4). reflexivity.
Qed.
(** options with an address, encryption and compression *)
Example C122_example : options_ok (mkOpts 9 44 0 [1; 0; 2; 0; 0]) /\ options_ok plain /\
  sealed plain 5 1 one_position = north /\ sealed (mkOpts 9 44 0 [1; 0; 2; 0; 0]) 5 1 one_position <> north.
Proof. split; [vm_compute; intuition congruence|]. split; [vm_compute; intuition congruence|]. split; [vm_compute; reflexivity|vm_compute; discriminate]. Qed.

(** ** C123: only positions that the device marks as valid are stored.  Refuted:
    two packets that differ in the validity flag only are stored alike. *)
Definition invalid : bytes := [1; 0; 0; 11; 0; 35; 0; 5; 0; 1; 246; 24; 0; 1; 0; 1; 7; 0; 0; 0; 2; 2; 16; 21; 0; 85; 145; 2; 16; 111; 28; 5; 158; 122; 181; 60; 53; 0; 208; 135; 44; 1; 0; 0; 0; 0; 90; 140].
Lemma invalid_good {E : go_env} : good invalid. Proof. good_packet. Qed.
Theorem C123_validity_respected_refuted : forall E : go_env, exists b1 b2 p1 p2 l1 l2 e1 e2 rec ack,
  good b1 /\ good b2 /\ decodes_to b1 p1 /\ decodes_to b2 p2 /\
  pSFRD p1 = Some (FSds l1) /\ pSFRD p2 = Some (FSds l2) /\ positions l1 = [e1] /\ positions l2 = [e2] /\
  VLD e1 = s1 /\ VLD e2 = s0 /\
  (forall spare, process (mkSlice b1 spare) = PActs [ASave rec; AWrite ack]) /\
  (forall spare, process (mkSlice b2 spare) = PActs [ASave rec; AWrite ack]).
Proof.
  intros E. exists north, invalid. do 8 eexists. split; [exact north_good|]. split; [exact invalid_good|].
  split; [apply decodes_to_nil; [exact north_good|]; vm_compute; reflexivity|].
  split; [apply decodes_to_nil; [exact invalid_good|]; vm_compute; reflexivity|].
  split; [reflexivity|]. split; [reflexivity|]. split; [reflexivity|]. split; [reflexivity|].
  split; [reflexivity|]. split; [reflexivity|].
  split; intros spare; [rewrite process_spare by exact north_good|rewrite process_spare by exact invalid_good];
    vm_compute; reflexivity.
Qed.
(** Exactly what is looked at: the number of the packet, the number, object and
    service of each record, and of each subrecord what Spec_Policy calls its
    essence.  Packets that agree in these are stored and answered alike. *)
Theorem C123_only_essence_matters : forall (E : go_env) b1 b2 p1 p2 l1 l2 spare1 spare2,
  decodes_to b1 p1 -> decodes_to b2 p2 -> pSFRD p1 = Some (FSds l1) -> pSFRD p2 = Some (FSds l2) ->
  pPT p1 = pPT p2 -> pPID p1 = pPID p2 -> map record_essence l1 = map record_essence l2 ->
  process (mkSlice b1 spare1) = process (mkSlice b2 spare2).
Proof. intros E b1 b2 p1 p2 l1 l2 spare1 spare2. exact (essence_process b1 b2 p1 p2 l1 l2 spare1 spare2). Qed.
Example C123_example : forall E : go_env, exists p1 p2 l1 l2, decodes_to north p1 /\ decodes_to invalid p2 /\
  pSFRD p1 = Some (FSds l1) /\ pSFRD p2 = Some (FSds l2) /\ pPT p1 = pPT p2 /\ pPID p1 = pPID p2 /\
  map record_essence l1 = map record_essence l2.
Proof.
  intros E. do 4 eexists. split; [apply decodes_to_nil; [exact north_good|]; vm_compute; reflexivity|].
  split; [apply decodes_to_nil; [exact invalid_good|]; vm_compute; reflexivity|].
  split; [reflexivity|]. split; [reflexivity|]. split; [reflexivity|]. split; [reflexivity|]. vm_compute. reflexivity.
Qed.

(** ** C124: a packet that is sent again is stored once.  Refuted: a connection
    that brings [n] copies of a packet does [n] times what one copy does. *)
Theorem C124_stored_once_refuted : forall (E : go_env) b acts, good b -> process (mkSlice b []) = PActs acts ->
  forall n c s, carries c (repeat b n) s ->
  fst (conn_exec c) = concat (repeat acts n).
Proof. intros E b acts _ Hp n c s Hc. exact (replay c b n s acts Hc Hp). Qed.
Example C124_example : forall E : go_env, exists c rec ack, carries c (repeat north 2) [] /\
  fst (conn_exec c) = [ASave rec; AWrite ack; ASave rec; AWrite ack].
Proof.
  intros E. assert (P : exists rec ack, process (mkSlice north []) = PActs [ASave rec; AWrite ack]) by (do 2 eexists; vm_compute; reflexivity).
  destruct P as (rec & ack & P). assert (C : carries (mkIn [north ++ north] CEof) (repeat north 2) []).
  { split; [cbn [ci_chunks concat repeat]; rewrite !app_nil_r; reflexivity|]. split; [constructor; [exact north_good|constructor; [exact north_good|constructor]]|].
    left. split; [reflexivity|]. left. cbn. lia. }
  exists (mkIn [north ++ north] CEof), rec, ack. split; [exact C|]. rewrite (replay _ _ _ _ _ C P). reflexivity.
Qed.

(** ** C125: each record is confirmed under its own service.  Refuted. *)
Definition two_services : bytes := [1; 0; 0; 11; 0; 70; 0; 5; 0; 1; 3; 24; 0; 1; 0; 1; 7; 0; 0; 0; 2; 2; 16; 21; 0; 85; 145; 2; 16; 111; 28; 5; 158; 122; 181; 60; 53; 1; 208; 135; 44; 1; 0; 0; 0; 0; 24; 0; 2; 0; 1; 7; 0; 0; 0; 4; 4; 16; 21; 0; 85; 145; 2; 16; 111; 28; 5; 158; 122; 181; 60; 53; 1; 208; 135; 44; 1; 0; 0; 0; 0; 90; 240].
Lemma two_services_good {E : go_env} : good two_services. Proof. good_packet. Qed.
(** Exactly: all records of a packet are confirmed by one record, under the
    service of the last of them. *)
Theorem C125_service_of_the_last : forall (E : go_env) b spare acts p l s, good b -> decodes_to b p ->
  pSFRD p = Some (FSds (l ++ [s])) -> confirms (l ++ [s]) = false ->
  process (mkSlice b spare) = PActs acts ->
  exists ack, In (AWrite ack) acts /\ is_ack ack (pPID p) 0 (SST s) (map RN (l ++ [s])).
Proof.
  intros E b spare acts p l s Hg Hd Hl Hc Hp. destruct (process_spec b spare (proj1 Hg) (proj2 Hg)) as (acts' & Hp' & Ha).
  rewrite Hp in Hp'. apply acts_inj in Hp'. subst acts'. destruct (accepted_actions b acts p _ Hg Ha (Hd []) Hl) as (_ & _ & H).
  unfold app_actions in H. rewrite Hc in H. destruct H as (rec & ack & -> & _ & _ & _ & _ & _ & _ & _ & _ & _ & svc & Hi & Hsvc).
  exists ack. split; [apply in_or_app; right; left; reflexivity|]. rewrite (Hsvc s l eq_refl) in Hi. exact Hi.
Qed.
Theorem C125_own_service_refuted : forall E : go_env, exists b p s1 s2 rec ack, good b /\ decodes_to b p /\
  pSFRD p = Some (FSds [s1; s2]) /\ SST s1 = 2 /\ SST s2 = 4 /\
  (forall spare, process (mkSlice b spare) = PActs [ASave rec; AWrite ack]) /\ is_ack ack 5 0 4 [RN s1; RN s2].
Proof.
  intros E. assert (D : exists p s1 s2, decodes_to two_services p /\ pSFRD p = Some (FSds [s1; s2]) /\ SST s1 = 2 /\ SST s2 = 4 /\
    confirms [s1; s2] = false /\ pPID p = 5).
  { do 3 eexists. split; [apply decodes_to_nil; [exact two_services_good|]; vm_compute; reflexivity|]. repeat split; reflexivity. }
  destruct D as (p & s1 & s2 & Hd & Hl & H1 & H2 & Hc & Hpid).
  assert (P : exists rec ack, process (mkSlice two_services []) = PActs [ASave rec; AWrite ack]) by (do 2 eexists; vm_compute; reflexivity).
  destruct P as (rec & ack & P). destruct (C125_service_of_the_last E two_services [] _ p [s1] s2 two_services_good Hd Hl Hc P) as (ack' & Hin & Hi).
  exists two_services, p, s1, s2, rec, ack. split; [exact two_services_good|]. split; [exact Hd|]. split; [exact Hl|]. split; [exact H1|]. split; [exact H2|].
  split; [intros spare; rewrite process_spare by exact two_services_good; exact P|].
  destruct Hin as [Hin|[Hin|[]]]; [discriminate Hin|]. injection Hin as <-. rewrite Hpid, H2 in Hi. exact Hi.
Qed.
(** Partial: true when all records of the packet name one service. *)
Theorem C125_own_service_partial : forall (E : go_env) b spare acts p l svc, good b -> decodes_to b p ->
  pSFRD p = Some (FSds l) -> l <> [] -> confirms l = false -> Forall (fun s => SST s = svc) l ->
  process (mkSlice b spare) = PActs acts ->
  exists ack, In (AWrite ack) acts /\ is_ack ack (pPID p) 0 svc (map RN l).
Proof.
  intros E b spare acts p l svc Hg Hd Hl Hne Hc Hall Hp. destruct (exists_last Hne) as (l' & s & ->).
  destruct (C125_service_of_the_last E b spare acts p l' s Hg Hd Hl Hc Hp) as (ack & H1 & H2). exists ack. split; [exact H1|].
  apply Forall_app in Hall. destruct Hall as [_ Hs]. inversion Hs as [|? ? He _]; subst. exact H2.
Qed.
Example C125_example : forall E : go_env, exists p l, decodes_to two_objects p /\ pSFRD p = Some (FSds l) /\ l <> [] /\ confirms l = false /\
  Forall (fun s => SST s = 2) l.
Proof.
  intros E. do 2 eexists. split; [apply decodes_to_nil; [exact two_objects_good|]; vm_compute; reflexivity|].
  split; [reflexivity|]. split; [discriminate|]. split; [reflexivity|]. repeat constructor.
Qed.

(** ** C126: the packets the receiver sends on a connection bear different
    numbers.  Refuted by one packet with credentials. *)
(** Exactly: every reply to a packet bears its number plus one. *)
Theorem C126_reply_number : forall (E : go_env) b spare acts w, good b -> process (mkSlice b spare) = PActs acts ->
  In (AWrite w) acts -> word_at w 7 = (word_at b 7 + 1) mod 2 ^ 16.
Proof. intros E b spare acts w. exact (reply_number b spare acts w). Qed.
Theorem C126_own_numbers_refuted : forall E : go_env, exists b rec w1 w2, good b /\
  (forall spare, process (mkSlice b spare) = PActs [ASave rec; AWrite w1; AWrite w2]) /\
  w1 <> w2 /\ word_at w1 7 = word_at w2 7.
Proof.
  intros E. assert (P : exists rec w1 w2, process (mkSlice rich []) = PActs [ASave rec; AWrite w1; AWrite w2] /\ length w1 <> length w2).
  { do 3 eexists. split; [vm_compute; reflexivity|]. vm_compute. lia. }
  destruct P as (rec & w1 & w2 & P & Hne). exists rich, rec, w1, w2. split; [exact rich_good|].
  split; [intros spare; rewrite process_spare by exact rich_good; exact P|]. split; [congruence|].
  rewrite (C126_reply_number E rich [] _ w1 rich_good P), (C126_reply_number E rich [] _ w2 rich_good P); [reflexivity|right; right; left; reflexivity|right; left; reflexivity].
Qed.
(** Partial: packets with different numbers are answered under different ones. *)
Theorem C126_own_numbers_partial : forall (E : go_env) b b' spare spare' acts acts' w w', good b -> good b' ->
  process (mkSlice b spare) = PActs acts -> process (mkSlice b' spare') = PActs acts' ->
  In (AWrite w) acts -> In (AWrite w') acts' -> word_at b 7 <> word_at b' 7 -> word_at w 7 <> word_at w' 7.
Proof.
  intros E b b' spare spare' acts acts' w w' Hg Hg' Hp Hp' Hin Hin' Hne.
  rewrite (reply_number b spare acts w Hg Hp Hin), (reply_number b' spare' acts' w' Hg' Hp' Hin').
  assert (H : word_at b 7 < 2 ^ 16) by (apply word_at_bound, Hg). assert (H' : word_at b' 7 < 2 ^ 16) by (apply word_at_bound, Hg').
  revert Hne H H'. generalize (word_at b 7), (word_at b' 7). change (2 ^ 16) with 65536. intros x y Hne Hx Hy Heq.
  apply Hne. destruct (N.eq_dec x 65535) as [->|Hx'], (N.eq_dec y 65535) as [->|Hy'].
  - reflexivity.
  - rewrite (N.mod_small (y + 1)) in Heq by lia. change ((65535 + 1) mod 65536) with 0 in Heq. lia.
  - rewrite (N.mod_small (x + 1)) in Heq by lia. change ((65535 + 1) mod 65536) with 0 in Heq. lia.
  - rewrite !N.mod_small in Heq by lia. lia.
Qed.
Print Assumptions C122_options_respected_refuted.
Print Assumptions C122_options_ignored.
Print Assumptions C123_validity_respected_refuted.
Print Assumptions C123_only_essence_matters.
Print Assumptions C124_stored_once_refuted.
Print Assumptions C125_service_of_the_last.
Print Assumptions C125_own_service_refuted.
Print Assumptions C125_own_service_partial.
Print Assumptions C126_reply_number.
Print Assumptions C126_own_numbers_refuted.
Print Assumptions C126_own_numbers_partial.
