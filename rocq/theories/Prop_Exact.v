(** * C46, C47, C62: what holds where the property does not. *)
From Coq Require Import Lia Permutation.
From Verif Require Import GoBase Float64 SubRecords Records Package Storage Server
  Spec_Pkg Spec_Server Spec_Exact GlueServer GlueServer2 ServerFacts4 ExactFacts WitnessServer Vectors.

(** ** C46: every position of an accepted packet is stored under the object of
    the packet's last record, whatever object its own record names. *)
Theorem C46_last_object : forall (E : go_env) b spare p before s acts rec, good b -> decodes_to b p ->
  pSFRD p = Some (FSds (before ++ [s])) ->
  process (mkSlice b spare) = PActs acts -> In rec (saves acts) ->
  nrClientID rec = OID s /\ length (nrLocs rec) = length (positions (before ++ [s])).
Proof.
  intros E b spare p before s acts rec Hg Hd Hl Hp Hin.
  destruct (saved_record b spare p (before ++ [s]) acts rec Hg Hd Hl Hp Hin) as (_ & _ & _ & Hlocs & _ & _ & ->).
  split; [rewrite map_app; apply last_last|]. symmetry. clear - Hlocs. induction Hlocs; cbn; congruence.
Qed.
Example C46_last_example : forall E : go_env, exists p before s, good two_objects /\ decodes_to two_objects p /\
  pSFRD p = Some (FSds (before ++ [s])) /\ length before = 1%nat /\ OID s = 9.
Proof.
  intros E. do 3 eexists. split; [exact two_objects_good|].
  split; [apply decodes_to_nil; [exact two_objects_good|]; vm_compute; reflexivity|].
  split; [cbn [pSFRD]; match goal with |- Some (FSds [?a; ?b]) = _ => exact (eq_refl : _ = Some (FSds ([a] ++ [b]))) end|]. split; reflexivity.
Qed.

(** ** C47: the receiver never looks at the hemispheres: packets that are equal
    except for hemisphere flags have exactly the same effects. *)
Theorem C47_hemisphere_never_used : forall (E : go_env) b1 b2 p1 p2 l1 l2 s1 s2,
  good b1 -> good b2 -> decodes_to b1 p1 -> decodes_to b2 p2 ->
  pSFRD p1 = Some (FSds l1) -> pSFRD p2 = Some (FSds l2) -> pPT p1 = pPT p2 -> pPID p1 = pPID p2 ->
  map unsigned_record l1 = map unsigned_record l2 ->
  process (mkSlice b1 s1) = process (mkSlice b2 s2).
Proof. exact @hemisphere_forgotten. Qed.
Example C47_never_example : forall E : go_env, exists p1 p2 l1 l2, good north /\ good south /\
  decodes_to north p1 /\ decodes_to south p2 /\ pSFRD p1 = Some (FSds l1) /\ pSFRD p2 = Some (FSds l2) /\
  pPT p1 = pPT p2 /\ pPID p1 = pPID p2 /\ map unsigned_record l1 = map unsigned_record l2 /\ l1 <> l2.
Proof.
  intros E. do 4 eexists. split; [exact north_good|]. split; [exact south_good|].
  split; [apply decodes_to_nil; [exact north_good|]; vm_compute; reflexivity|].
  split; [apply decodes_to_nil; [exact south_good|]; vm_compute; reflexivity|].
  split; [reflexivity|]. split; [reflexivity|]. split; [reflexivity|]. split; [reflexivity|].
  split; [reflexivity|]. intro H. discriminate H.
Qed.

(** ** C62, partial: no two storages disagree about the order of the records of
    one connection: of two storages the later lags behind by at most one record
    (all storages before the later one accepting). *)
Theorem C62_same_order_partial : forall (E : go_env) stores conns sched i c k k',
  Forall in_ok conns -> nth_error conns i = Some c -> (k < k')%nat -> (k' < length stores)%nat ->
  (forall j s h, (j < k')%nat -> nth_error stores j = Some s -> s h = SvOk) ->
  exists later, calls_of i k (g_trace (grun stores sched (ginit conns))) =
                calls_of i k' (g_trace (grun stores sched (ginit conns))) ++ later /\ (length later <= 1)%nat.
Proof. exact @storages_in_step. Qed.
(** And once every connection has run to its end, all storages (if they accept)
    have received the same records the same number of times. *)
Theorem C62_same_records : forall (E : go_env) stores conns sched k k', Forall in_ok conns ->
  (k < length stores)%nat -> (k' < length stores)%nat ->
  (forall s h, In s stores -> s h = SvOk) ->
  (forall i c, nth_error conns i = Some c -> (turns_needed (length stores) c <= turns i sched)%nat) ->
  g_crashed (grun stores sched (ginit conns)) = false ->
  Permutation (history k (g_trace (grun stores sched (ginit conns))))
              (history k' (g_trace (grun stores sched (ginit conns)))).
Proof. exact @same_records. Qed.
(** Two clients, two storages; the first storage is one record ahead at some
    time, and both have the two records in the end. *)
Example C62_partial_example : let E := env0 in
  let conns := [mkIn [vec_msg] CEof; mkIn [north] CEof] in let stores := [fun _ => SvOk; fun _ => SvOk] in
  let g1 := grun stores [0; 0; 1; 1]%nat (ginit conns) in
  let all := (repeat 0 260 ++ repeat 1 260)%nat in let g2 := grun stores all (ginit conns) in
  length (calls_of 0 0 (g_trace g1)) = 1%nat /\ length (calls_of 0 1 (g_trace g1)) = 0%nat /\
  length (history 0 (g_trace g2)) = 2%nat /\ g_crashed g2 = false /\
  (forall i c, nth_error conns i = Some c -> (turns_needed (length stores) c <= turns i all)%nat).
Proof.
  split; [vm_compute; reflexivity|]. split; [vm_compute; reflexivity|]. split; [vm_compute; reflexivity|].
  split; [vm_compute; reflexivity|].
  intros [|[|i]] c H; [injection H as <-|injection H as <-|destruct i; discriminate H]; apply Nat.leb_le; vm_compute; reflexivity.
Qed.
Print Assumptions C46_last_object.
Print Assumptions C47_hemisphere_never_used.
Print Assumptions C62_same_order_partial.
Print Assumptions C62_same_records.
