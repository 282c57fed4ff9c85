(** * Prop_Server: C38–C46, C48–C50, C54, C55, C58, C61, C62 — the receiver.

    [conn_exec c] is the life of one connection alone; [grun stores sched (ginit
    conns)] is any number of connections under the schedule [sched] (which
    goroutine performs its next step), with arbitrary storages. *)
From Verif Require Import GoBase Crc Float64 SubRecords Records Package Storage Server
  Spec_Bits Spec_Wf Spec_Rec Spec_Pkg Spec_Server ServerFacts2 ServerFacts3 ServerFacts4 ServerFacts5
  GlueServer WitnessServer GlueServer2 Vectors.

(** ** C38: what happens on a connection depends on the bytes sent, not on how
    they are cut into reads. *)
Theorem C38_segmentation_irrelevant : forall (E : go_env) c1 c2,
  concat (ci_chunks c1) = concat (ci_chunks c2) -> ci_end c1 = ci_end c2 -> conn_exec c1 = conn_exec c2.
Proof. exact @conn_exec_stream. Qed.
Example C38_example : conn_exec (mkIn [firstn 3 vec_msg; []; skipn 3 vec_msg] CEof) = conn_exec (mkIn [vec_msg] CEof)
  /\ length (fst (conn_exec (mkIn [vec_msg] CEof))) = 2%nat.
Proof. vm_compute. split; reflexivity. Qed.

(** ** C39: one group of replies per packet, in order of arrival: for every
    accepted application-data packet without confirmations the positive
    acknowledgement of all its records, then the result packet if it carried
    credentials. *)
Theorem C39_one_ack_per_packet : forall (E : go_env) c pkts s, carries c pkts s ->
  exists wss, writes (fst (conn_exec c)) = concat wss /\
  Forall2 (fun b ws =>
    forall p l, decodes_to b p -> pSFRD p = Some (FSds l) -> confirms l = false ->
    exists ack svc, is_ack ack (pPID p) 0 svc (map RN l) /\ pPID p = word_at b 7 /\
      ws = ack :: (if credentials l then [result_packet (pPID p)] else [])) pkts wss.
Proof.
  intros E c pkts s H. destruct (stream_replies c pkts s H) as (wss & H1 & H2). exists wss. split; assumption.
Qed.
Example C39_example : forall E : go_env, carries (mkIn [north; south ++ [1]] CEof) [north; south] [1].
Proof.
  intros E. split; [reflexivity|]. split; [constructor; [exact north_good|constructor; [exact south_good|constructor]]|].
  left. split; [reflexivity|]. left. cbn. repeat constructor.
Qed.

(** ** C40: the acknowledgement is itself a well-framed packet that decodes to
    one confirmation with status 0 for each record, in order, whatever the
    number of records. *)
Theorem C40_reply_names_every_record : forall (E : go_env) b spare p l, good b -> decodes_to b p ->
  pSFRD p = Some (FSds l) -> confirms l = false ->
  exists acts ack svc, process (mkSlice b spare) = PActs acts /\ In (AWrite ack) acts /\
    framed ack /\ exists pa r, decodes_to ack pa /\ pPT pa = 0 /\ pSFRD pa = Some (FResp r) /\
      RPID r = word_at b 7 /\ PR r = 0 /\
      (l <> [] -> exists s, SDRS r = Some [s] /\ SST s = svc /\ RST s = svc /\
         map SRD (RD s) = map (fun rec => SRResp (RN rec) 0) l) /\
      (l = [] -> SDRS r = None).
Proof. exact @reply_names. Qed.
Example C40_example : forall E : go_env, exists p l, decodes_to two_objects p /\ pSFRD p = Some (FSds l) /\ confirms l = false
  /\ length l = 2%nat.
Proof.
  intros E. do 2 eexists. split; [apply decodes_to_nil; [exact two_objects_good|]; vm_compute; reflexivity|].
  split; [reflexivity|]. split; reflexivity.
Qed.

(** ** C41: one save per accepted packet with positions, none otherwise; its
    locations are the packet's positions in order. *)
Theorem C41_positions_saved_once : forall (E : go_env) b spare p l, good b -> decodes_to b p ->
  pSFRD p = Some (FSds l) -> confirms l = false ->
  exists acts, process (mkSlice b spare) = PActs acts /\
    (positions l = [] -> saves acts = []) /\
    (positions l <> [] -> exists rec, saves acts = [rec] /\
       Forall2 loc_stored (positions l) (nrLocs rec) /\ nrCount rec = N.of_nat (length (positions l)) /\
       nrNavTs rec = last (map (fun e => unix_of (NavigationTime e)) (positions l)) 0%Z /\
       nrIMEI rec = last (imeis l) []).
Proof. exact @positions_saved. Qed.

(** ** C42: in every execution, when a reply is written to a packet with
    positions, the storages have already been called, one after the other, for
    a record with these positions. *)
Theorem C42_save_before_ack : forall (E : go_env) stores conns sched i c pkts s,
  Forall in_ok conns -> nth_error conns i = Some c -> carries c pkts s ->
  forall pre w post, events_of i (g_trace (grun stores sched (ginit conns))) = pre ++ EWrite w :: post ->
  exists before b after, pkts = before ++ b :: after /\
    exists acts, packet_actions b acts /\ In (AWrite w) acts /\
    forall p l, decodes_to b p -> pSFRD p = Some (FSds l) -> positions l <> [] ->
      exists early saving late rec o,
        pre = early ++ saving ++ late /\ one_save (length stores) rec saving o /\
        Forall2 loc_stored (positions l) (nrLocs rec).
Proof. exact @save_before_ack. Qed.

(** ** C43: a positive acknowledgement means the data was stored.  Refuted: a
    storage that always fails; the packet is acknowledged with result 0. *)
Theorem C43_ack_means_stored_refuted : forall E : go_env,
  exists b p l rec ack svc sched, good b /\ decodes_to b p /\ pSFRD p = Some (FSds l) /\ positions l <> [] /\
  events_of 0 (g_trace (grun [fun _ => SvErr] sched (ginit [mkIn [b] COpen]))) =
    [ECall 0 rec SvErr; ESaved rec SvErr; EWrite ack] /\
  is_ack ack (pPID p) 0 svc (map RN l).
Proof. exact @ack_despite_failure. Qed.
(** Partial: true when the storages answer without error; then every storage
    has accepted the record before the write. *)
Theorem C43_ack_means_stored_partial : forall (E : go_env) stores conns sched i c pkts s,
  (forall st h, In st stores -> st h = SvOk) ->
  Forall in_ok conns -> nth_error conns i = Some c -> carries c pkts s ->
  forall pre w post, events_of i (g_trace (grun stores sched (ginit conns))) = pre ++ EWrite w :: post ->
  exists before b after, pkts = before ++ b :: after /\
    exists acts, packet_actions b acts /\ In (AWrite w) acts /\
    forall p l, decodes_to b p -> pSFRD p = Some (FSds l) -> positions l <> [] ->
      exists rec, Forall2 loc_stored (positions l) (nrLocs rec) /\
        forall k, (k < length stores)%nat -> In (ECall k rec SvOk) pre.
Proof. exact @ack_means_stored. Qed.

(** Exactly, for every behaviour of the storages: before the write the record
    was offered to the storages in their order up to the first that refused it;
    those before that one hold it, those after it were not asked, and the
    acknowledgement is the same in all cases. *)
Theorem C43_stored_exactly : forall (E : go_env) stores conns sched i c pkts s,
  Forall in_ok conns -> nth_error conns i = Some c -> carries c pkts s ->
  forall pre w post, events_of i (g_trace (grun stores sched (ginit conns))) = pre ++ EWrite w :: post ->
  exists before b after, pkts = before ++ b :: after /\
    exists acts, packet_actions b acts /\ In (AWrite w) acts /\
    forall p l, decodes_to b p -> pSFRD p = Some (FSds l) -> positions l <> [] ->
      exists rec reached early saving late,
        Forall2 loc_stored (positions l) (nrLocs rec) /\
        pre = early ++ saving ++ late /\
        (reached <= length stores)%nat /\
        (forall k, In (ECall k rec SvOk) saving <-> (k < reached)%nat) /\
        (forall k, In (ECall k rec SvErr) saving <-> k = reached /\ (k < length stores)%nat) /\
        (forall k r o, In (ECall k r o) saving -> r = rec /\ (k <= reached)%nat).
Proof.
  intros E stores conns sched i c pkts s H1 H2 H3 pre w post H4.
  destruct (save_before_ack stores conns sched i c pkts s H1 H2 H3 pre w post H4)
    as (before & b & after & Hp & acts & Ha & Hw & Hf).
  exists before, b, after. split; [exact Hp|]. exists acts. split; [exact Ha|]. split; [exact Hw|].
  intros p l Hd Hs Hn. destruct (Hf p l Hd Hs Hn) as (early & saving & late & rec & o & Hpre & Hone & Hl).
  destruct (one_save_reached _ _ _ _ Hone) as (reached & R1 & R2 & R3 & R4).
  exists rec, reached, early, saving, late. auto 8.
Qed.

(** ** C44: a rejected packet causes exactly one negative acknowledgement with
    its identifier and the error code, no save, and the connection goes on with
    the next byte. *)
Theorem C44_rejected_packet : forall (E : go_env) c b s p code, good b -> bytes_ok s = true ->
  concat (ci_chunks c) = b ++ s -> (forall spare, pkg_decode pkg0 (mkSlice b spare) = (p, DRet code true)) ->
  code <> 0 /\
  exists ack, is_ack ack (word_at b 7) code 0 [] /\
    conn_exec c = (AWrite ack :: fst (conn_exec (mkIn [s] (ci_end c))), snd (conn_exec (mkIn [s] (ci_end c)))).
Proof. exact @rejected_packet. Qed.
Definition ex_bad : bytes := [1; 0; 3; 11; 0; 3; 0; 137; 0; 0; 74; 21; 56; 0; 51; 233].
Example C44_example : forall E : go_env, good ex_bad /\ exists p, forall spare, pkg_decode pkg0 (mkSlice ex_bad spare) = (p, DRet 137 true).
Proof.
  intros E. assert (good ex_bad) as Hg.
  { apply good_std; [split; [vm_compute; reflexivity|]; split; [vm_compute; reflexivity|];
    split; [vm_compute; reflexivity|]; vm_compute; split; [discriminate|reflexivity]|vm_compute; reflexivity]. }
  split; [exact Hg|]. eexists. intros spare. rewrite (framed_spare ex_bad spare [] (proj1 Hg) (proj2 Hg)). vm_compute. reflexivity.
Qed.

(** ** C45: ten bytes that do not start with protocol version 1, at any packet
    boundary: no further reply, no save, the connection is closed. *)
Theorem C45_alien_disconnected : forall (E : go_env) c pkts s, carries c pkts s -> alien s ->
  exists actss, Forall2 packet_actions pkts actss /\ conn_exec c = (concat actss, FinClosed).
Proof. exact @alien_closed. Qed.
Example C45_example : forall E : go_env, carries (mkIn [north ++ repeat 71 10] COpen) [north] (repeat 71 10) /\ alien (repeat 71 10).
Proof.
  intros E. assert (alien (repeat 71 10)) as Ha by (split; [reflexivity|]; split; [cbn; repeat constructor|discriminate]).
  split; [|exact Ha]. split; [reflexivity|]. split; [constructor; [exact north_good|constructor]|right; exact Ha].
Qed.

(** ** C46: positions are stored under the object of their record.  Refuted:
    records of objects 7 and 9 in one packet; both positions go to object 9. *)
Theorem C46_own_object_refuted : forall E : go_env,
  exists b p s1 s2 rec ack, good b /\ decodes_to b p /\
  pSFRD p = Some (FSds [s1; s2]) /\ positions [s1] <> [] /\ positions [s2] <> [] /\ OID s1 = 7 /\ OID s2 = 9 /\
  (forall spare, process (mkSlice b spare) = PActs [ASave rec; AWrite ack]) /\
  length (nrLocs rec) = 2%nat /\ nrClientID rec = 9.
Proof. exact @object_refuted. Qed.
(** Partial: true when all records of the packet belong to one object. *)
Theorem C46_own_object_partial : forall (E : go_env) b spare p l o acts rec, good b -> decodes_to b p ->
  pSFRD p = Some (FSds l) -> Forall (fun s => OID s = o) l ->
  process (mkSlice b spare) = PActs acts -> In rec (saves acts) -> nrClientID rec = o.
Proof. exact @own_object. Qed.

(** ** C48: counters 110 (low three bytes) and 111 (high byte) give the packet
    number.  Refuted, with the exact condition under which it comes out right. *)
Theorem C48_packet_number_refuted : forall E : go_env,
  exists b p s e c1 c2 rec ack, good b /\ decodes_to b p /\
  pSFRD p = Some (FSds [s]) /\ map SRD (RD s) = [SRPos e; SRAbsCntr c1; SRAbsCntr c2] /\
  CounterNumber c1 = 110 /\ CounterValue c1 = 0x030201 /\ CounterNumber c2 = 111 /\ CounterValue c2 = 4 /\
  (forall spare, process (mkSlice b spare) = PActs [ASave rec; AWrite ack]) /\
  nrPacketID rec = 0x04020300.
Proof. exact @counters_refuted. Qed.
Theorem C48_packet_number_iff : forall (E : go_env) b p before s after pre c1 mid c2 post lo hi spare acts rec,
  good b -> decodes_to b p ->
  pSFRD p = Some (FSds (before ++ s :: after)) -> RD s = pre ++ c1 :: mid ++ c2 :: post ->
  SRD c1 = SRAbsCntr {| CounterNumber := 110; CounterValue := lo |} ->
  SRD c2 = SRAbsCntr {| CounterNumber := 111; CounterValue := hi |} ->
  (forall r n v, In r (pre ++ mid ++ post ++ flat_map RD after) ->
     SRD r = SRAbsCntr {| CounterNumber := n; CounterValue := v |} -> n <> 110 /\ n <> 111) ->
  lo < 2 ^ 24 -> hi < 2 ^ 8 ->
  process (mkSlice b spare) = PActs acts -> In rec (saves acts) ->
  (nrPacketID rec = hi * 2 ^ 24 + lo <-> lo mod 2 ^ 8 = 0 /\ (lo / 2 ^ 8) mod 2 ^ 8 = lo / 2 ^ 16).
Proof. exact @packet_number_iff. Qed.

(** ** C49: no input crashes the server.  Refuted: one packet stops the process
    in every environment, whatever the storages, the other clients and the
    schedule; where append leaves less than 243 spare bytes behind a 12-byte
    slice (as Go's runtime does), twelve bytes do. *)
Theorem C49_no_crash_refuted : forall (E : go_env) stores others sched s e, exists b, framed b /\
  let g := grun stores (0%nat :: sched) (ginit (mkIn [b ++ s] e :: others)) in
  g_crashed g = true /\ g_trace g = [].
Proof. intros. exists crash_packet. split; [exact crash_framed|apply crash_server]. Qed.
Theorem C49_twelve_bytes_refuted : forall (E : go_env) stores others sched s e,
  (length (append_spare 12) < 243)%nat ->
  let g := grun stores (0%nat :: sched) (ginit (mkIn [[1; 0; 0; 0; 0; 10; 0; 0; 0; 0; 0; 0] ++ s] e :: others)) in
  g_crashed g = true /\ g_trace g = [].
Proof. exact @small_crash_server. Qed.
Example C49_example : (length (@append_spare env0 12) < 243)%nat.
Proof. repeat constructor. Qed.
(** The exact set of packets that crash it ... *)
Theorem C49_crashes_exactly : forall (E : go_env) data spare, bytes_ok data = true -> (10 <= length data)%nat ->
  (process (mkSlice data spare) = PCrash <-> panics data spare).
Proof. exact @crashes_iff. Qed.
(** ... and, partially: clients whose packets are well framed with a header
    length and lengths that Decode survives never crash it, under any schedule
    and with storages that do not panic. *)
Theorem C49_no_crash_partial : forall (E : go_env) stores conns sched,
  (forall st h, In st stores -> st h <> SvPanic) ->
  Forall (fun c => exists pkts s, carries c pkts s) conns ->
  g_crashed (grun stores sched (ginit conns)) = false.
Proof. exact @good_clients. Qed.

(** ** C50: what a client sees and what is saved for it is a function of its own
    bytes: in every execution a prefix of it has been performed, and all of it
    once the connection has had enough turns. *)
Theorem C50_isolation : forall (E : go_env) c, exists acts, forall stores conns sched i,
  Forall in_ok conns -> nth_error conns i = Some c ->
  (exists later, acts = actions_of i (g_trace (grun stores sched (ginit conns))) ++ later) /\
  ((turns_needed (length stores) c <= turns i sched)%nat ->
   g_crashed (grun stores sched (ginit conns)) = false ->
   actions_of i (g_trace (grun stores sched (ginit conns))) = acts).
Proof.
  intros E c. exists (fst (conn_exec c)). intros stores conns sched i Hb Hi.
  split; [apply isolation; assumption|]. intros. apply completion; assumption.
Qed.
Example C50_example : let g := grun [fun _ => SvOk] (repeat 1%nat 9 ++ repeat 0%nat 9) (ginit [mkIn [vec_msg] CEof; mkIn [vec_auth] CEof]) in
  length (actions_of 0 (g_trace g)) = 2%nat /\ length (actions_of 1 (g_trace g)) = 2%nat /\ g_crashed g = false.
Proof. vm_compute. repeat split. Qed.

(** ** C61: every storage is handed the records of each connection once each,
    in order, as long as the storages before it do not fail. *)
Theorem C61_storage_order : forall (E : go_env) stores conns sched i c k,
  Forall in_ok conns -> nth_error conns i = Some c -> (k < length stores)%nat ->
  (forall j s h, (j < k)%nat -> nth_error stores j = Some s -> s h = SvOk) ->
  (exists later, saves (fst (conn_exec c)) = calls_of i k (g_trace (grun stores sched (ginit conns))) ++ later) /\
  ((turns_needed (length stores) c <= turns i sched)%nat -> g_crashed (grun stores sched (ginit conns)) = false ->
   calls_of i k (g_trace (grun stores sched (ginit conns))) = saves (fst (conn_exec c))).
Proof.
  intros. split; [apply storage_order; assumption|]. intros. apply storage_complete; assumption.
Qed.
Example C61_example : let g := grun [fun _ => SvOk; fun h => if (2 <? length h)%nat then SvErr else SvOk]
    (repeat 1%nat 12 ++ repeat 0%nat 12) (ginit [mkIn [vec_msg; vec_msg] CEof; mkIn [vec_msg] CEof]) in
  length (calls_of 0 1 (g_trace g)) = 2%nat /\ length (history 1 (g_trace g)) = 3%nat /\ g_crashed g = false.
Proof. vm_compute. repeat split. Qed.

(** ** C62: all storages see the records in the same order.  Refuted: two
    clients, two storages that never fail. *)
Theorem C62_same_order_refuted : forall E : go_env, exists b1 b2 r1 r2 sched, good b1 /\ good b2 /\ r1 <> r2 /\
  let tr := g_trace (grun [fun _ => SvOk; fun _ => SvOk] sched (ginit [mkIn [b1] CEof; mkIn [b2] CEof])) in
  history 0 tr = [r1; r2] /\ history 1 tr = [r2; r1].
Proof. exact @order_refuted. Qed.

(** ** C54: the packet that answers credentials decodes to result code 0.
    Refuted for every packet identifier: it is rejected with code 129 (its
    packet type says PT_RESPONSE while its body is a record). *)
Theorem C54_result_decodable_refuted : forall (E : go_env) pid p spare, pid < 2 ^ 16 ->
  snd (pkg_decode p (mkSlice (result_packet pid) spare)) = DRet 129 true.
Proof. intros E pid p spare H. rewrite <- rescode_eq. apply rescode_rejected, H. Qed.
(** Partial: it is well framed, and its body does hold the record with result
    code 0 when read as application data. *)
Theorem C54_result_decodable_partial : forall (E : go_env) pid, pid < 2 ^ 16 ->
  framed (result_packet pid) /\
  exists s, frame_decode 1 (frame_of (result_packet pid)) = Ok (FSds [s]) /\ map SRD (RD s) = [SRResult 0] /\
    word_at (result_packet pid) 7 = (pid + 1) mod 2 ^ 16.
Proof. exact @result_body. Qed.

(** ** C55: confirmations are not acknowledged. *)
Theorem C55_confirmations_silent : forall (E : go_env) b spare p, good b -> decodes_to b p ->
  (pPT p = 0 \/ (exists l, pSFRD p = Some (FSds l) /\ confirms l = true)) ->
  process (mkSlice b spare) = PActs [].
Proof. exact @confirm_silent. Qed.
(** Two gates connected to each other: whatever packet starts it, the replies
    [r] to its replies save nothing, and the replies [r1] to those are answered
    by nothing. *)
Theorem C55_no_storm : forall (E : go_env) b acts r, framed b -> packet_actions b acts -> In r (writes acts) ->
  framed r /\ survives r /\
  forall spare, exists acts1, process (mkSlice r spare) = PActs acts1 /\
    (forall n, ~ In (ASave n) acts1) /\
    forall r1, In r1 (writes acts1) -> framed r1 /\ survives r1 /\
      forall spare1, process (mkSlice r1 spare1) = PActs [].
Proof. exact @no_storm. Qed.

(** ** C58: the sensor readings saved are those of the packet, in order. *)
Theorem C58_sensors_saved : forall (E : go_env) b spare p l acts rec, good b -> decodes_to b p ->
  pSFRD p = Some (FSds l) -> process (mkSlice b spare) = PActs acts -> In rec (saves acts) ->
  map (fun s => (anNumber s, anValue s)) (nrAn rec) = flat_map analogue (subrecords l) /\
  Forall2 liquid_stored (liquids l) (nrLiq rec).
Proof. exact @sensors_saved. Qed.
Example C58_example : match process (mkSlice vec_msg []) with
  | PActs acts => match saves acts with [rec] => length (nrAn rec) = 8%nat /\ length (nrLiq rec) = 4%nat | _ => False end
  | _ => False end.
Proof. vm_compute. repeat split. Qed.
Print Assumptions C38_segmentation_irrelevant.
Print Assumptions C39_one_ack_per_packet.
Print Assumptions C40_reply_names_every_record.
Print Assumptions C41_positions_saved_once.
Print Assumptions C42_save_before_ack.
Print Assumptions C43_ack_means_stored_refuted.
Print Assumptions C43_ack_means_stored_partial.
Print Assumptions C43_stored_exactly.
Print Assumptions C44_rejected_packet.
Print Assumptions C45_alien_disconnected.
Print Assumptions C46_own_object_refuted.
Print Assumptions C46_own_object_partial.
Print Assumptions C48_packet_number_refuted.
Print Assumptions C48_packet_number_iff.
Print Assumptions C49_no_crash_refuted.
Print Assumptions C49_twelve_bytes_refuted.
Print Assumptions C49_crashes_exactly.
Print Assumptions C49_no_crash_partial.
Print Assumptions C50_isolation.
Print Assumptions C61_storage_order.
Print Assumptions C62_same_order_refuted.
Print Assumptions C54_result_decodable_refuted.
Print Assumptions C54_result_decodable_partial.
Print Assumptions C55_confirmations_silent.
Print Assumptions C55_no_storm.
Print Assumptions C58_sensors_saved.
