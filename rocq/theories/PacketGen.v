(** * PacketGen: cli/packet-gen/main.go.  No proofs here. *)
From Verif Require Import GoBase Crc Float64 SubRecords Records Package.

Section PacketGen.
Context {E : go_env}.

(** The command-line parameters used (main.go:46-64); pid, oid and liquid are
    Go ints; the time is the instant of the parsed -time flag (ns since 2010). *)
Record gen_params := mkGen {
  gpPid : Z; gpOid : Z; gpTime : Z; gpLiquid : Z; gpLat : f64; gpLon : f64 }.

(** uint16(int), uint32(int) *)
Definition z_u16 (z : Z) : N := Z.to_N (z mod 65536).
Definition z_u32 (z : Z) : N := Z.to_N (z mod 4294967296).

(** time.Date(2021, February, 20, 0, 30, 40, 0, UTC), main.go:116: the number of
    ns since 2010-01-01. *)
Definition gen_time : Z := 351477040000000000.

(** main.go:86-151 *)
Definition gen_package (g : gen_params) : package :=
  {| pPRV := 1; pSKID := 0; pPRF := [ch0; ch0]; pRTE := s0; pENA := [ch0; ch0];
     pCMP := s0; pPR := [ch1; ch0]; pHL := 11; pHE := 0; pFDL := 0;
     pPID := z_u16 (gpPid g); pPT := 1; pPRA := 0; pRCA := 0; pTTL := 0; pHCS := 0;
     pSFRD := Some (FSds [
       {| RL := 0; RN := 1; SSOD := s0; RSOD := s0; GRP := s0; RPP := [ch1; ch0];
          TMFE := s0; EVFE := s1; OBFE := s1; OID := z_u32 (gpOid g); EVID := 3436; TM := 0;
          SST := 2; RST := 2;
          RD := [
            {| SRT := 16; SRL := 0; SRD := SRPos
                 {| NavigationTime := gen_time; Latitude := gpLat g; Longitude := gpLon g;
                    ALTE := s1; LOHS := s0; LAHS := s0; MV := s1; BB := s1; CS := s0;
                    FIX := s1; VLD := s1; DirectionHighestBit := 0; AltitudeSign := 0;
                    Speed := 34; Direction := 172; Odometer := 191; DigitalInputs := 144;
                    Source := 0; Altitude := 30 |} |};
            {| SRT := 27; SRL := 0; SRD := SRLiquid
                 {| LLSEF := s1; LLSVU := [ch0; ch0]; RDF := s0; LLSN := 1; MADDR := 1;
                    LLSD := z_u32 (gpLiquid g) |} |} ] |} ]);
     pSFRCS := 0 |}.

(** main.go:153 *)
Definition gen_bytes (g : gen_params) : res bytes := snd (pkg_encode (gen_package g)).

(** How the program ends: os.Exit(n) with or without the success message, or
    an uncaught panic. *)
Inductive gen_out := GExit (code : N) (success : bool) | GPanic | GFuel.

(** main.go:210-221: all confirmations of the ack have status 0. *)
Definition status_ok (rd : record_data) : bool :=
  if SRT rd =? 0 then match SRD rd with SRResp _ st => st =? 0 | _ => true end else true.

(** main.go:177-224: handling of the bytes obtained by one conn.Read into a
    1024-byte buffer. *)
Definition gen_ack (g : gen_params) (ackbuf : bytes) (spare : bytes) : gen_out :=
  let '(p, out) := pkg_decode pkg0 (mkSlice ackbuf spare) in
  match out with
  | DPanic => GPanic
  | DFuel => GFuel
  | DRet _ true => GExit 1 false                                       (* :188-191 *)
  | DRet _ false =>
      match pSFRD p with
      | Some (FResp a) =>
          if negb (RPID a =? z_u16 (gpPid g)) then GExit 1 false       (* :199-203 *)
          else if negb (PR a =? 0) then GExit 1 false                  (* :205-208 *)
          else match SDRS a with
               | None => GPanic                                        (* :210 nil assertion *)
               | Some l =>
                   if forallb (fun rec => forallb status_ok (RD rec)) l
                   then GExit 1 true                                   (* :223-224 *)
                   else GExit 1 false                                  (* :214-217 *)
               end
      | _ => GExit 1 false                                             (* :193-197 *)
      end
  end.

(** The network as the program sees it: ResolveTCPAddr, DialTCP, Write or Read
    fails (main.go:159-184), or Read returns the given bytes. *)
Inductive gen_net := NetFail | NetAck (ack spare : bytes).

(** main.go:44-225: the whole program; [parse] is time.Parse(time.RFC3339, _)
    (None: error) and [net] what the network does with the bytes sent. *)
Definition gen_main (pid oid liquid : Z) (ts : gostr) (lat lon : f64)
    (parse : gostr -> option Z) (net : bytes -> gen_net) : gen_out :=
  if (pid =? 0)%Z then GExit 1 false                                   (* :66-69 *)
  else if (oid =? 0)%Z then GExit 1 false                              (* :71-74 *)
  else match ts with
  | [] => GExit 1 false                                                (* :76-79 *)
  | _ :: _ =>
      match parse ts with
      | None => GExit 1 false                                          (* :80-84 *)
      | Some t =>
          let g := mkGen pid oid t liquid lat lon in
          match gen_bytes g with
          | Err => GExit 1 false                                       (* :154-157 *)
          | Panic => GPanic
          | Fuel => GFuel
          | Ok b => match net b with
                    | NetFail => GExit 1 false
                    | NetAck ack spare => gen_ack g ack spare
                    end
          end
      end
  end.

End PacketGen.
