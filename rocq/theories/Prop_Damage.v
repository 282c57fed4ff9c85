(** * Prop_Damage: C88, C89, C92–C94 — damaged, cut and re-used packets. *)
From Coq Require Import Lia.
From Verif Require Import GoBase Crc Float64 SubRecords Records Package Storage Server
  Spec_Bits Spec_Wf Spec_Rec Spec_Crc Spec_Pkg Spec_Server Spec_Stream Spec_Damage BaseFacts CrcFacts SubFacts RecFacts
  DecFacts PkgFacts PkgFacts2 BurstFacts ServerFacts ServerFacts2 ServerFacts3 StreamFacts GlueServer WitnessServer
  DamageFacts.

(** ** C88: a short burst anywhere in a packet is detected.
    [b] is a whole packet that Decode accepts, [b'] the same packet with one
    burst of at most 8 bits inverted anywhere — also across the boundary between
    the header checksum and the frame, or the frame and its checksum — that
    spares the header-length byte and the RTE bit. *)
Theorem C88_short_burst_detected : forall (E : go_env) p q b b' spare p' e,
  bytes_ok b = true -> bytes_ok b' = true -> whole b ->
  pkg_decode p (mkSlice b spare) = (p', DRet 0 e) -> damaged 8 b b' -> refused q b' spare.
Proof. exact @short_burst_refused. Qed.
(** After the header 12 bits are detected, also across the frame and its checksum. *)
Theorem C88_tail_burst_detected : forall (E : go_env) p q b b' spare p' e,
  bytes_ok b = true -> bytes_ok b' = true -> whole b ->
  pkg_decode p (mkSlice b spare) = (p', DRet 0 e) -> burst 12 b b' ->
  firstn (frame_pos b) b' = firstn (frame_pos b) b -> refused q b' spare.
Proof. exact @tail_burst_refused. Qed.
(** 12 is the best possible: 13 bits in the last byte of the frame and the
    checksum bytes turn the repository's own PtResponse packet into another one
    that is accepted, with another result code. *)
Definition resp : bytes := [1; 0; 3; 11; 0; 3; 0; 137; 0; 0; 74; 21; 56; 0; 51; 232].
Definition resp13 : bytes := [1; 0; 3; 11; 0; 3; 0; 137; 0; 0; 74; 21; 56; 1; 18; 248].
Theorem C88_limit : forall E : go_env, exists p p' r r',
  whole resp /\ burst 13 resp resp13 /\ firstn (frame_pos resp) resp13 = firstn (frame_pos resp) resp /\
  pkg_decode pkg0 (mkSlice resp []) = (p, DRet 0 false) /\
  pkg_decode pkg0 (mkSlice resp13 []) = (p', DRet 0 false) /\
  pSFRD p = Some (FResp r) /\ pSFRD p' = Some (FResp r') /\ PR r <> PR r'.
Proof.
  intro E. do 4 eexists. split; [split; vm_compute; reflexivity|]. split.
  { split; [reflexivity|]. exists 0x1211, 4. vm_compute. split; [split; reflexivity|reflexivity]. }
  split; [vm_compute; reflexivity|]. split; [vm_compute; reflexivity|]. split; [vm_compute; reflexivity|].
  split; [reflexivity|]. split; [reflexivity|]. vm_compute. discriminate.
Qed.
(** The position packet of the examples, one byte of its record damaged (a
    burst of 8), and the last bits of the frame with the first of the checksum. *)
Definition north20 : bytes := firstn 20 north ++ [2 + 129] ++ skipn 21 north.
Definition north45 : bytes := firstn 45 north ++ [0 + 3; 121 - 64] ++ skipn 47 north.
Lemma north_whole : whole north. Proof. split; vm_compute; reflexivity. Qed.
Lemma north_decodes {E : go_env} : exists p, decodes_to north p.
Proof. eexists. apply decodes_to_nil; [exact north_good|]. vm_compute. reflexivity. Qed.
Lemma north20_damaged : damaged 8 north north20.
Proof.
  split; [|split; vm_compute; reflexivity]. split; [reflexivity|].
  exists 129, (8 * 27). vm_compute. split; [split; reflexivity|reflexivity].
Qed.
Lemma north45_damaged : damaged 8 north north45.
Proof.
  split; [|split; vm_compute; reflexivity]. split; [reflexivity|].
  exists 13, 14. vm_compute. split; [split; reflexivity|reflexivity].
Qed.
Example C88_example : forall E : go_env, exists p, whole north /\ pkg_decode pkg0 (mkSlice north []) = (p, DRet 0 false) /\
  bytes_ok north20 = true /\ bytes_ok north45 = true /\ damaged 8 north north20 /\ damaged 8 north north45.
Proof.
  intro E. destruct north_decodes as [p Hp]. exists p. split; [exact north_whole|]. split; [exact (Hp [])|].
  split; [vm_compute; reflexivity|]. split; [vm_compute; reflexivity|]. exact (conj north20_damaged north45_damaged).
Qed.

(** ** C89: a damaged packet costs only itself.
    In a stream of packets, replace the packet [b] by a damaged [b'] whose
    declared lengths and first byte survived.  What was done with the packets
    before it and will be done with everything after it — [A] and [R] and the
    end [f] — does not change, whatever the bytes after it are; instead of [B],
    what is done with [b], one negative acknowledgement is written. *)
Theorem C89_damage_is_contained : forall (E : go_env) before b b' p,
  Forall good before -> framed b -> whole b -> decodes_to b p ->
  bytes_ok b' = true -> hurt b b' -> byte_at b' 0 = 1 -> decl_fdl b' = decl_fdl b ->
  exists A B nack code, packet_actions b B /\ code <> 0 /\ is_ack nack (word_at b' 7) code 0 [] /\
  forall e rest, bytes_ok rest = true -> exists R f,
    conn_exec (mkIn [concat before ++ b ++ rest] e) = (A ++ B ++ R, f) /\
    conn_exec (mkIn [concat before ++ b' ++ rest] e) = (A ++ [AWrite nack] ++ R, f).
Proof. exact @damage_contained. Qed.
Example C89_example : forall E : go_env, exists p, Forall good [north; south] /\ framed north /\ whole north /\
  decodes_to north p /\ bytes_ok north45 = true /\ hurt north north45 /\ byte_at north45 0 = 1 /\
  decl_fdl north45 = decl_fdl north.
Proof.
  intro E. destruct north_decodes as [p Hp]. exists p.
  split; [constructor; [exact north_good|constructor; [exact south_good|constructor]]|].
  split; [exact (proj1 north_good)|]. split; [exact north_whole|]. split; [exact Hp|].
  split; [vm_compute; reflexivity|]. split; [left; exact north45_damaged|]. split; vm_compute; reflexivity.
Qed.

(** ** C92: which prefixes of an accepted packet are accepted.
    Exactly: the whole packet but for its last byte, when that byte is 0. *)
Theorem C92_prefixes_accepted : forall (E : go_env) p b spare p' e,
  bytes_ok b = true -> whole b -> pkg_decode p (mkSlice b spare) = (p', DRet 0 e) ->
  forall k q spare', (k < length b)%nat ->
  ((exists q' e', pkg_decode q (mkSlice (firstn k b) spare') = (q', DRet 0 e')) <->
   k = (length b - 1)%nat /\ last b 0 = 0).
Proof. exact @prefix_exact. Qed.
(** A packet that ends in 0, a response to packet 216, and one that does not. *)
Definition resp0 : bytes := [1; 0; 3; 11; 0; 3; 0; 137; 0; 0; 74; 216; 0; 0; 169; 0].
Example C92_example : forall E : go_env, exists p p',
  bytes_ok resp0 = true /\ whole resp0 /\ pkg_decode pkg0 (mkSlice resp0 []) = (p, DRet 0 false) /\ last resp0 0 = 0 /\
  bytes_ok north = true /\ whole north /\ pkg_decode pkg0 (mkSlice north []) = (p', DRet 0 false) /\ last north 0 <> 0.
Proof.
  intro E. destruct north_decodes as [p' Hp]. eexists. exists p'.
  split; [vm_compute; reflexivity|]. split; [split; vm_compute; reflexivity|]. split; [vm_compute; reflexivity|].
  split; [reflexivity|]. split; [vm_compute; reflexivity|]. split; [exact north_whole|]. split; [exact (Hp [])|].
  vm_compute. discriminate.
Qed.

(** ** C93: what a used receiver contributes.
    If a fresh Package decodes [data] to [f], then a Package that already held
    [q] decodes it to [f] too, except that without routing the three routing
    fields keep what [q] held. *)
Theorem C93_reuse : forall (E : go_env) q data spare f, bytes_ok data = true ->
  pkg_decode pkg0 (mkSlice data spare) = (f, DRet 0 false) ->
  pkg_decode q (mkSlice data spare) =
    (if routed data then f else set_PRA (pPRA q) (set_RCA (pRCA q) (set_TTL (pTTL q) f)), DRet 0 false).
Proof. exact @reuse_exact. Qed.
Example C93_example : forall E : go_env, exists f, bytes_ok north = true /\
  pkg_decode pkg0 (mkSlice north []) = (f, DRet 0 false) /\ routed north = false.
Proof. intro E. destruct north_decodes as [p Hp]. exists p. split; [vm_compute; reflexivity|]. split; [exact (Hp [])|vm_compute; reflexivity]. Qed.

(** ** C94: a damaged length field costs only the damaged packet.
    Refuted: one inverted bit in the frame-length field and the receiver, which
    believes the length before it has checked the header checksum, swallows
    the following 32 kilobytes: no packet in them is answered or saved. *)
Definition north6 : bytes := firstn 6 north ++ [0 + 128] ++ skipn 7 north.
Theorem C94_length_damage_contained_refuted : forall E : go_env, exists p r a,
  good north /\ whole north /\ decodes_to north p /\ bytes_ok north6 = true /\ damaged 1 north north6 /\
  conn_exec (mkIn [north ++ north] COpen) = ([ASave r; AWrite a; ASave r; AWrite a], FinBlocked) /\
  forall rest, bytes_ok rest = true -> blen rest < 32768 ->
    conn_exec (mkIn [north6 ++ rest] COpen) = ([], FinBlocked).
Proof.
  intro E. destruct north_decodes as [p Hp].
  assert (exists r a, process (mkSlice north []) = PActs [ASave r; AWrite a]) as (r & a & Hpr)
    by (do 2 eexists; vm_compute; reflexivity).
  exists p, r, a. split; [exact north_good|]. split; [exact north_whole|]. split; [exact Hp|].
  assert (bytes_ok north6 = true) as Hok by (vm_compute; reflexivity).
  split; [exact Hok|]. split.
  { split; [|split; vm_compute; reflexivity]. split; [reflexivity|].
    exists 1, (8 * 41 + 7). vm_compute. split; [split; reflexivity|reflexivity]. }
  split.
  - assert (process (mkSlice north (room north)) = PActs [ASave r; AWrite a]) as Hpr'
      by (rewrite process_spare by exact north_good; exact Hpr).
    refine (eq_trans (exec_unit north _ (framed_unit _ (proj1 north_good)) Hpr' COpen north (proj1 (proj1 north_good))) _).
    rewrite (exec_one north COpen _ north_good Hpr). reflexivity.
  - intros rest Hrest Hlen. apply (exec_cut (mkIn [north6 ++ rest] COpen) (north6 ++ rest)).
    + cbn [ci_chunks concat]. apply app_nil_r.
    + rewrite bytes_ok_app, Hok. exact Hrest.
    + rewrite app_length. change (length north6) with 48%nat. lia.
    + reflexivity.
    + rewrite unit_len_app by (vm_compute; lia). change (unit_len north6) with 32816.
      unfold blen in *. rewrite app_length. change (length north6) with 48%nat. lia.
Qed.
(** Partial: when the bytes the receiver swallows with the damaged packet end
    with a packet, the damage is answered with one header-checksum error (137)
    and the packets after them are handled as ever.  Missing: the swallowed
    packets, and a swallowed part that ends inside a packet. *)
Theorem C94_length_damage_contained_partial : forall (E : go_env) b b' t p,
  framed b -> whole b -> decodes_to b p -> damaged 8 b b' ->
  bytes_ok b' = true -> firstn (frame_pos b) b' <> firstn (frame_pos b) b -> a_unit (b' ++ t) ->
  exists nack, is_ack nack (word_at b' 7) 137 0 [] /\
  forall e rest, bytes_ok rest = true ->
    conn_exec (mkIn [(b' ++ t) ++ rest] e) =
    (AWrite nack :: fst (conn_exec (mkIn [rest] e)), snd (conn_exec (mkIn [rest] e))).
Proof. exact @length_damage. Qed.
(** Frame length 35 damaged to 83: the packet swallows the next one exactly. *)
Definition north5 : bytes := firstn 5 north ++ [83] ++ skipn 6 north.
Example C94_example : forall E : go_env, exists p, framed north /\ whole north /\ decodes_to north p /\
  damaged 8 north north5 /\ bytes_ok north5 = true /\
  firstn (frame_pos north) north5 <> firstn (frame_pos north) north /\ a_unit (north5 ++ south).
Proof.
  intro E. destruct north_decodes as [p Hp]. exists p.
  split; [exact (proj1 north_good)|]. split; [exact north_whole|]. split; [exact Hp|]. split.
  { split; [|split; vm_compute; reflexivity]. split; [reflexivity|].
    exists (N.lxor 35 83), (8 * 42). vm_compute. split; [split; reflexivity|reflexivity]. }
  split; [vm_compute; reflexivity|]. split; [vm_compute; discriminate|].
  split; [vm_compute; reflexivity|]. split; [apply Nat.leb_le; vm_compute; reflexivity|]. split; vm_compute; reflexivity.
Qed.
Print Assumptions C88_short_burst_detected.
Print Assumptions C88_tail_burst_detected.
Print Assumptions C88_limit.
Print Assumptions C89_damage_is_contained.
Print Assumptions C92_prefixes_accepted.
Print Assumptions C93_reuse.
Print Assumptions C94_length_damage_contained_refuted.
Print Assumptions C94_length_damage_contained_partial.
