(** * Spec_Policy: packets with arbitrary header options, and what of a record
    the receiver looks at. *)
From Verif Require Import GoBase Crc Float64 SubRecords Records Package Storage Server
  Spec_Bits Spec_Wf Spec_Rec Spec_Pkg Spec_Server.

(** The options of a packet header: security key, flags (bits 7-6 prefix, 5
    route, 4-3 encryption, 2 compression, 1-0 priority), header encoding, and the
    routing fields (sender's and recipient's address, time to live). *)
Record options := mkOpts { opKey : N; opFlags : N; opEncoding : N; opRoute : bytes }.
Definition options_ok (o : options) : Prop :=
  opKey o < 256 /\ opFlags o < 256 /\ opEncoding o < 256 /\ bytes_ok (opRoute o) = true /\
  length (opRoute o) = (if N.testbit (opFlags o) 5 then 5 else 0)%nat.
(** no option at all *)
Definition plain : options := mkOpts 0 0 0 [].

Definition low (v : N) : N := v mod 256.
Definition high (v : N) : N := v / 256.
Definition header (o : options) (pid pt : N) (body : bytes) : bytes :=
  [1; opKey o; opFlags o; 11 + blen (opRoute o); opEncoding o; low (blen body); high (blen body);
   low pid; high pid; pt] ++ opRoute o.
(** The packet number [pid] of type [pt] with this body and these options, with
    true lengths and both checksums right. *)
Definition sealed (o : options) (pid pt : N) (body : bytes) : bytes :=
  header o pid pt body ++ [crc8 (header o pid pt body)] ++ body ++ [low (crc16 body); high (crc16 body)].

Section Essence.
Context {E : go_env}.

(** What the receiver takes from a subrecord. *)
Inductive essence :=
| XConfirmation
| XCredentials
| XIMEI (imei : gostr)
| XPosition (t : Z) (lat lon : f64) (speed : N)
| XReading (sensor value : N)
| XNumber (counter value : N)
| XLevel (number module : N) (err unit : gostr) (level : N).
Definition essence_of (d : srdata) : list essence :=
  match d with
  | SRResp _ _ => [XConfirmation]
  | SRAuth _ => [XCredentials]
  | SRTerm e => [XCredentials; XIMEI (IMEI e)]
  | SRPos e => [XPosition (NavigationTime e) (Latitude e) (Longitude e) (Speed e)]
  | SRAd _ | SRAbsAn _ => map (fun r => XReading (fst r) (snd r)) (analogue d)
  | SRAbsCntr e => if (CounterNumber e =? 110) || (CounterNumber e =? 111)
                   then [XNumber (CounterNumber e) (CounterValue e)] else []
  | SRLiquid e => [XLevel (LLSN e) (MADDR e) (LLSEF e) (LLSVU e) (LLSD e)]
  | SRResult _ | SRExt _ | SRState _ | SRCounters _ | SRPlus _ | SRDisp _ | SRNil => []
  end.
(** and from a record: its number, object and service, and its subrecords *)
Definition record_essence (r : sdr) : N * N * N * list essence :=
  (RN r, OID r, SST r, flat_map (fun d => essence_of (SRD d)) (RD r)).
End Essence.
