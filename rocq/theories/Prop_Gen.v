(** * Prop_Gen: C56, C57, C68, C69 — packets built by this library and by
    packet-gen, received by this server. *)
From Coq Require Import String List.
From Verif Require Import GoBase Crc Float64 SubRecords Records Package Storage Server PacketGen
  Spec_Bits Spec_Wf Spec_Rec Spec_Pkg Spec_Server Spec_Storage GlueGen Vectors.
Local Open Scope string_scope.
Local Open Scope N_scope.
Local Open Scope list_scope.

(** ** C56: for all parameters, the packet of packet-gen is accepted by the
    receiver, saved once, with the given object, packet number, coordinates (as
    quantised on the wire) and liquid level, from sensor 1 of module 1, and the reply, which fits the read
    buffer of 1024 bytes, passes all checks. *)
Theorem C56_packet_gen_accepted : forall (E : go_env) g, exists b, gen_bytes g = Ok b /\ good b /\
  forall spare, exists rec ack loc liq,
    process (mkSlice b spare) = PActs [ASave rec; AWrite ack] /\
    nrClientID rec = z_u32 (gpOid g) /\ nrPacketID rec = z_u16 (gpPid g) /\
    nrLocs rec = [loc] /\
    lsLat loc = coord_decode 90 (coord_encode 90 (gpLat g)) /\
    lsLng loc = coord_decode 180 (coord_encode 180 (gpLon g)) /\
    lsSpeed loc = 34 /\
    nrLiq rec = [liq] /\ lqMm liq = z_u32 (gpLiquid g) /\ lqNumber liq = 1 /\ lqModule liq = 1 /\
    blen ack <= 1024 /\ forall spare', gen_ack g ack spare' = GExit 1 true.
Proof. exact @gen_received. Qed.
(** The whole program: with a network that hands its packet to the receiver and
    brings the reply back, it reports success. *)
Theorem C56_packet_gen_reports_success : forall (E : go_env) pid oid liquid ts lat lon (parse : gostr -> option Z) t net,
  (pid <> 0)%Z -> (oid <> 0)%Z -> ts <> [] -> parse ts = Some t ->
  (forall b, gen_bytes (mkGen pid oid t liquid lat lon) = Ok b -> delivers net b) ->
  gen_main pid oid liquid ts lat lon parse net = GExit 1 true.
Proof. exact @gen_main_received. Qed.
Example C56_example : forall E : go_env, exists net,
  gen_main 7 (-1) 300 (text "2021-02-20T00:30:40Z") (f_of_Z 55) (f_of_Z 37) (fun _ => Some 0%Z) net = GExit 1 true.
Proof.
  intros E. exists echo_net. apply gen_main_received with (t := 0%Z); try discriminate; [reflexivity|].
  intros b. apply echo_delivers.
Qed.

(** ** C57: -time determines the navigation time sent; the exit status is 0
    exactly after a successful exchange.  Refuted on both counts: whatever -time
    is, the packet and the behaviour are the same and the receiver stores
    2021-02-20 00:30:40 UTC; and the exit status is never 0. *)
Theorem C57_time_honoured_refuted : forall (E : go_env) pid oid liquid ts ts' lat lon (parse : gostr -> option Z) net,
  ts <> [] -> ts' <> [] -> parse ts <> None -> parse ts' <> None ->
  gen_main pid oid liquid ts lat lon parse net = gen_main pid oid liquid ts' lat lon parse net.
Proof. exact @gen_time_ignored. Qed.
Theorem C57_saved_time_refuted : forall (E : go_env) g b spare acts rec,
  gen_bytes g = Ok b -> process (mkSlice b spare) = PActs acts -> In rec (saves acts) -> nrNavTs rec = 1613781040%Z.
Proof. exact @gen_saved_time. Qed.
Theorem C57_exit_status_refuted : forall (E : go_env) pid oid liquid ts lat lon parse net ok,
  gen_main pid oid liquid ts lat lon parse net <> GExit 0 ok.
Proof. exact @gen_never_zero. Qed.
Example C57_example : forall E : go_env, exists b acts rec,
  gen_bytes (mkGen 7 1 0 300 (f_of_Z 55) (f_of_Z 37)) = Ok b /\ process (mkSlice b []) = PActs acts /\ In rec (saves acts).
Proof.
  intros E. destruct (gen_received (mkGen 7 1 0 300 (f_of_Z 55) (f_of_Z 37))) as (b & Hb & _ & H).
  destruct (H []) as (rec & ack & loc & liq & H1 & _). exists b, [ASave rec; AWrite ack], rec.
  split; [exact Hb|]. split; [exact H1|]. left. reflexivity.
Qed.

(** ** C68: end to end.  Any well-formed application-data packet without
    confirmations that the library encodes is accepted by the server; the record
    stored holds the positions as quantised on the wire, and the sensors, object
    and packet number that were encoded; the reply confirms every record. *)
Theorem C68_encoded_packet_received : forall (E : go_env) p l,
  wf_pkg p -> pPRV p = 1 -> pSFRD p = Some (FSds l) -> confirms l = false ->
  exists p1 b, pkg_encode p = (p1, Ok b) /\ good b /\
  forall spare, exists rec ack svc,
    process (mkSlice b spare) = PActs ((match positions l with [] => [] | _ :: _ => [ASave rec] end)
        ++ [AWrite ack] ++ (if credentials l then [AWrite (result_packet (pPID p))] else [])) /\
    Forall2 loc_stored (map quant_pos (positions l)) (nrLocs rec) /\
    nrCount rec = N.of_nat (length (positions l)) /\
    map (fun s => (anNumber s, anValue s)) (nrAn rec) = flat_map analogue (subrecords l) /\
    Forall2 liquid_stored (liquids l) (nrLiq rec) /\
    nrClientID rec = last (map OID l) 0 /\ nrIMEI rec = last (imeis l) [] /\
    nrNavTs rec = last (map (fun e => unix_of (time_decode (time_encode (NavigationTime e)))) (positions l)) 0%Z /\
    (numbered l = false -> nrPacketID rec = pPID p) /\
    is_ack ack (pPID p) 0 svc (map RN l).
Proof. exact @encoded_received. Qed.
Example C68_example : forall (E : go_env) g, wf_pkg (gen_package g) /\ pPRV (gen_package g) = 1 /\
  exists s, pSFRD (gen_package g) = Some (FSds [s]) /\ confirms [s] = false /\ length (positions [s]) = 1%nat.
Proof. intros E g. split; [apply gen_wf|]. split; [reflexivity|]. exists (gen_sdr g). repeat split. Qed.

(** ** C69: packet-gen survives every reply.  Refuted: a well-formed positive
    response without records, for its own packet, kills it. *)
Theorem C69_packet_gen_survives_refuted : forall (E : go_env) g,
  exists ack, (forall spare, gen_ack g ack spare = GPanic) /\ framed ack.
Proof. exact @gen_crashes. Qed.

(** ** C95: packet-gen announces success exactly when the reply is a positive
    response to its own packet: accepted by Decode, for the packet id it sent,
    result 0, with a record list in which every confirmation has status 0 — and
    only after sending the packet, all required flags given. *)
Theorem C95_success_exactly : forall (E : go_env) g ack spare, gen_ack g ack spare = GExit 1 true <->
  exists p code r l, pkg_decode pkg0 (mkSlice ack spare) = (p, DRet code false) /\
    pSFRD p = Some (FResp r) /\ RPID r = z_u16 (gpPid g) /\ PR r = 0 /\ SDRS r = Some l /\
    forall s d n st, In s l -> In d (RD s) -> SRT d = 0 -> SRD d = SRResp n st -> st = 0.
Proof. exact @gen_success_iff. Qed.
Theorem C95_program_success_exactly : forall (E : go_env) pid oid liquid ts lat lon parse net,
  gen_main pid oid liquid ts lat lon parse net = GExit 1 true <->
  pid <> 0%Z /\ oid <> 0%Z /\ ts <> [] /\ exists t b ack spare, parse ts = Some t /\
    gen_bytes (mkGen pid oid t liquid lat lon) = Ok b /\ net b = NetAck ack spare /\
    gen_ack (mkGen pid oid t liquid lat lon) ack spare = GExit 1 true.
Proof. exact @gen_main_success_iff. Qed.
(** A refusal by this server is reported as one. *)
Theorem C95_refusal_reported : forall (E : go_env) g ack code svc nums spare,
  is_ack ack (z_u16 (gpPid g)) code svc nums -> code <> 0 -> gen_ack g ack spare = GExit 1 false.
Proof. exact @gen_nack. Qed.
(** It dies exactly when Decode does, or on a positive response without records. *)
Theorem C69_dies_exactly : forall (E : go_env) g ack spare, bytes_ok ack = true -> (gen_ack g ack spare = GPanic <->
  panics ack spare \/
  exists p code r, pkg_decode pkg0 (mkSlice ack spare) = (p, DRet code false) /\
    pSFRD p = Some (FResp r) /\ RPID r = z_u16 (gpPid g) /\ PR r = 0 /\ SDRS r = None).
Proof. exact @gen_panic_iff. Qed.
(** Replies of the three kinds: confirmed, another id, refused. *)
Definition reply (pid code status : N) : bytes :=
  let body := le_enc 2 pid ++ [code] ++ [6; 0; 1; 0; 0; 2; 2] ++ [0; 3; 0; 1; 0; status] in
  let hdr := [1; 0; 3; 11; 0; 16; 0; 8; 0; 0] in hdr ++ [crc8 hdr] ++ body ++ le_enc 2 (crc16 body).
Example C95_example : forall (E : go_env) t, let g := mkGen 7 1 t 300 (f_of_Z 55) (f_of_Z 37) in
  gen_ack g (reply 7 0 0) [] = GExit 1 true /\ gen_ack g (reply 8 0 0) [] = GExit 1 false /\
  gen_ack g (reply 7 1 0) [] = GExit 1 false /\ gen_ack g (reply 7 0 9) [] = GExit 1 false.
Proof. intros E t. vm_compute. repeat split; reflexivity. Qed.

(** ** C96: success means that the receiver confirmed the record sent.
    Refuted: a response that confirms no record at all, only carrying a result
    code, is announced as success.  Partial: no confirmation in the reply is
    negative.  Missing: that there is one. *)
Definition unconfirmed : bytes := [1; 0; 3; 11; 0; 14; 0; 1; 0; 0; 63; 7; 0; 0; 4; 0; 1; 0; 0; 1; 1; 9; 1; 0; 0; 190; 72].
Theorem C96_success_means_confirmed_refuted : forall (E : go_env) t, let g := mkGen 7 1 t 300 (f_of_Z 55) (f_of_Z 37) in
  exists p r l, framed unconfirmed /\ pkg_decode pkg0 (mkSlice unconfirmed []) = (p, DRet 0 false) /\
  pSFRD p = Some (FResp r) /\ SDRS r = Some l /\
  (forall s d n st, In s l -> In d (RD s) -> SRD d <> SRResp n st) /\
  gen_ack g unconfirmed [] = GExit 1 true.
Proof.
  intros E t g. do 3 eexists. split.
  { split; [reflexivity|]. split; [reflexivity|]. split; [reflexivity|]. vm_compute. split; [discriminate|reflexivity]. }
  split; [vm_compute; reflexivity|]. split; [reflexivity|]. split; [reflexivity|]. split; [|vm_compute; reflexivity].
  intros s d n st [<-|[]] [<-|[]]. discriminate.
Qed.
Theorem C96_success_means_confirmed_partial : forall (E : go_env) g ack spare p code r l s d n st,
  gen_ack g ack spare = GExit 1 true -> pkg_decode pkg0 (mkSlice ack spare) = (p, DRet code false) ->
  pSFRD p = Some (FResp r) -> SDRS r = Some l -> In s l -> In d (RD s) -> SRT d = 0 -> SRD d = SRResp n st ->
  st = 0.
Proof.
  intros E g ack spare p code r l s d n st Hg Hd Hs Hl. apply gen_success_iff in Hg.
  destruct Hg as (p' & code' & r' & l' & Hd' & Hs' & _ & _ & Hl' & Hall). rewrite Hd' in Hd. injection Hd as <- <-.
  rewrite Hs' in Hs. injection Hs as <-. rewrite Hl' in Hl. injection Hl as <-. apply Hall.
Qed.
Print Assumptions C56_packet_gen_accepted.
Print Assumptions C56_packet_gen_reports_success.
Print Assumptions C57_time_honoured_refuted.
Print Assumptions C57_saved_time_refuted.
Print Assumptions C57_exit_status_refuted.
Print Assumptions C68_encoded_packet_received.
Print Assumptions C69_packet_gen_survives_refuted.
Print Assumptions C95_success_exactly.
Print Assumptions C95_program_success_exactly.
Print Assumptions C95_refusal_reported.
Print Assumptions C69_dies_exactly.
Print Assumptions C96_success_means_confirmed_refuted.
Print Assumptions C96_success_means_confirmed_partial.
