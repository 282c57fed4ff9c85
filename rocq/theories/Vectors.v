(** * Vectors: the byte vectors of the repository's own unit tests, replayed
    against the model.  These are tests of the model's fidelity, not proofs of
    the properties.  [env0] is a concrete environment used by the examples. *)
From Coq Require Import Floats.SpecFloat.
From Verif Require Import GoBase Crc Float64 SubRecords Records Package Storage Server PacketGen.

(** A concrete environment: protobuf messages are kept as their bytes,
    out-of-range float conversions give 2^31, append leaves no spare bytes. *)
Definition env0 : go_env :=
  {| pb_msg := bytes; pb_unmarshal := Some; pb_marshal := Some;
     f2u_other := fun _ => 2147483648; append_spare := fun _ => [] |}.
#[export] Existing Instance env0.

Definition dec_ok (b : bytes) : bool :=
  match snd (pkg_decode pkg0 (mkSlice b [])) with DRet 0 false => true | _ => false end.
Definition reenc (b : bytes) : res bytes :=
  snd (pkg_encode (fst (pkg_decode pkg0 (mkSlice b [])))).

Definition vec_posdata : bytes := [1; 0; 3; 11; 0; 35; 0; 138; 0; 1; 73; 24; 0; 97; 0; 153; 176; 9; 2; 0; 2; 2; 16; 21; 0; 213; 63; 1; 16; 111; 28; 5; 158; 122; 181; 60; 53; 1; 208; 135; 44; 1; 0; 0; 0; 0; 204; 39].
Example vec_posdata_decodes : dec_ok vec_posdata = true /\ reenc vec_posdata = Ok vec_posdata.
Proof. vm_compute. split; reflexivity. Qed.
Definition vec_rebuild : bytes := [1; 0; 2; 11; 0; 48; 0; 0; 18; 1; 132; 37; 0; 134; 0; 18; 108; 13; 0; 0; 2; 2; 16; 24; 0; 48; 29; 243; 20; 101; 206; 134; 133; 222; 87; 255; 202; 155; 84; 1; 172; 191; 0; 0; 144; 0; 30; 0; 0; 27; 7; 0; 65; 1; 0; 0; 0; 0; 0; 240; 232].
Example vec_rebuild_decodes : dec_ok vec_rebuild = true /\ reenc vec_rebuild = Ok vec_rebuild.
Proof. vm_compute. split; reflexivity. Qed.
Definition vec_term : bytes := [1; 0; 3; 11; 0; 19; 0; 134; 0; 1; 182; 8; 0; 95; 0; 153; 2; 0; 0; 0; 1; 1; 1; 5; 0; 176; 9; 2; 0; 16; 13; 206].
Example vec_term_decodes : dec_ok vec_term = true /\ reenc vec_term = Ok vec_term.
Proof. vm_compute. split; reflexivity. Qed.
Definition vec_auth : bytes := [1; 0; 1; 11; 0; 51; 0; 1; 0; 1; 234; 40; 0; 0; 0; 12; 68; 152; 17; 17; 1; 1; 7; 37; 0; 56; 48; 48; 0; 69; 70; 50; 56; 52; 69; 55; 65; 69; 51; 53; 49; 68; 54; 68; 70; 57; 50; 67; 69; 51; 50; 51; 68; 55; 52; 65; 68; 50; 69; 66; 51; 0; 146; 97].
Example vec_auth_decodes : dec_ok vec_auth = true /\ reenc vec_auth = Ok vec_auth.
Proof. vm_compute. split; reflexivity. Qed.
Definition vec_disp : bytes := [1; 0; 0; 11; 0; 15; 0; 1; 0; 1; 6; 8; 0; 0; 0; 152; 1; 1; 5; 5; 0; 0; 71; 0; 0; 0; 81; 157].
Example vec_disp_decodes : dec_ok vec_disp = true /\ reenc vec_disp = Ok vec_disp.
Proof. vm_compute. split; reflexivity. Qed.
Definition vec_rescode : bytes := [1; 0; 0; 11; 0; 11; 0; 21; 56; 1; 17; 4; 0; 21; 56; 32; 1; 1; 9; 1; 0; 0; 60; 188].
Example vec_rescode_decodes : dec_ok vec_rescode = true /\ reenc vec_rescode = Ok vec_rescode.
Proof. vm_compute. split; reflexivity. Qed.
Definition vec_srresp : bytes := [1; 0; 0; 11; 0; 16; 0; 134; 0; 0; 24; 134; 0; 0; 6; 0; 95; 0; 32; 1; 1; 0; 3; 0; 95; 0; 0; 19; 115].
Example vec_srresp_decodes : dec_ok vec_srresp = true /\ reenc vec_srresp = Ok vec_srresp.
Proof. vm_compute. split; reflexivity. Qed.
Definition vec_ptresp : bytes := [1; 0; 3; 11; 0; 3; 0; 137; 0; 0; 74; 21; 56; 0; 51; 232].
Example vec_ptresp_decodes : dec_ok vec_ptresp = true /\ reenc vec_ptresp = Ok vec_ptresp.
Proof. vm_compute. split; reflexivity. Qed.

(** server_test.go *)
Definition vec_msg : bytes := [1; 0; 0; 11; 0; 177; 0; 232; 4; 1; 78; 166; 0; 161; 10; 129; 52; 246; 233; 1; 2; 2; 16; 26; 0; 79; 95; 229; 16; 0; 190; 205; 158; 128; 127; 139; 53; 147; 155; 128; 47; 249; 128; 2; 1; 0; 146; 0; 0; 0; 0; 17; 6; 0; 14; 70; 0; 0; 0; 12; 18; 28; 0; 1; 15; 255; 1; 68; 109; 0; 184; 0; 0; 11; 1; 0; 0; 0; 0; 0; 0; 0; 0; 0; 0; 0; 0; 0; 0; 0; 0; 20; 5; 0; 2; 255; 0; 41; 4; 27; 7; 0; 0; 255; 0; 0; 0; 0; 0; 27; 7; 0; 2; 0; 0; 0; 0; 0; 0; 27; 7; 0; 3; 1; 0; 90; 8; 0; 0; 27; 7; 0; 4; 2; 0; 0; 0; 0; 0; 25; 4; 0; 100; 119; 42; 4; 25; 4; 0; 101; 0; 0; 0; 25; 4; 0; 102; 1; 0; 0; 25; 4; 0; 103; 119; 42; 4; 25; 4; 0; 104; 119; 42; 4; 25; 4; 0; 105; 79; 154; 34; 25; 4; 0; 110; 119; 42; 4; 65; 246].
Definition vec_rsp : bytes := [1; 0; 0; 11; 0; 16; 0; 233; 4; 0; 161; 232; 4; 0; 6; 0; 1; 0; 32; 2; 2; 0; 3; 0; 161; 10; 0; 94; 182].
Example vec_server :
  match conn_exec (mkIn [vec_msg] CEof) with
  | ([ASave n; AWrite r], FinClosed) => r = vec_rsp /\ nrCount n = 1 /\ nrClientID n = 32110132
  | _ => False
  end.
Proof. vm_compute. repeat split; reflexivity. Qed.
Definition vec_sub_ad : bytes := [1; 15; 255; 0; 0; 0; 0; 0; 0; 0; 0; 0; 0; 0; 0; 0; 0; 0; 0; 0; 0; 0; 0; 0; 0; 0; 0; 0].
Example vec_sub_ad_ok : (x <- ad_decode vec_sub_ad ;; ad_encode x) = Ok vec_sub_ad.
Proof. vm_compute. reflexivity. Qed.
Definition vec_sub_counters : bytes := [192; 0; 0; 0; 3; 0; 0].
Example vec_sub_counters_ok : (x <- counters_decode vec_sub_counters ;; counters_encode x) = Ok vec_sub_counters.
Proof. vm_compute. reflexivity. Qed.
Definition vec_sub_termb : bytes := [176; 9; 2; 0; 16].
Example vec_sub_termb_ok : (x <- term_decode vec_sub_termb ;; term_encode x) = Ok vec_sub_termb.
Proof. vm_compute. reflexivity. Qed.
Definition vec_sub_liquid : bytes := [3; 1; 0; 0; 0; 0; 0].
Example vec_sub_liquid_ok : (x <- liquid_decode vec_sub_liquid ;; liquid_encode x) = Ok vec_sub_liquid.
Proof. vm_compute. reflexivity. Qed.
Definition vec_sub_state : bytes := [2; 127; 0; 41; 4].
Example vec_sub_state_ok : (x <- state_decode vec_sub_state ;; state_encode x) = Ok vec_sub_state.
Proof. vm_compute. reflexivity. Qed.
Definition vec_sub_ext : bytes := [14; 50; 0; 0; 0; 12].
Example vec_sub_ext_ok : (x <- ext_decode vec_sub_ext ;; ext_encode x) = Ok vec_sub_ext.
Proof. vm_compute. reflexivity. Qed.
Definition vec_sub_pos : bytes := [85; 145; 2; 16; 111; 28; 5; 158; 122; 181; 60; 53; 1; 208; 135; 44; 1; 0; 0; 0; 0].
Example vec_sub_pos_ok : (x <- pos_decode vec_sub_pos ;; pos_encode x) = Ok vec_sub_pos.
Proof. vm_compute. reflexivity. Qed.
Definition vec_sub_abscntr : bytes := [6; 117; 29; 112].
Example vec_sub_abscntr_ok : (x <- abs_cntr_decode vec_sub_abscntr ;; abs_cntr_encode x) = Ok vec_sub_abscntr.
Proof. vm_compute. reflexivity. Qed.

(** values spelled out in the Go tests *)
Example vec_pos_value :
  match pos_decode vec_sub_pos with
  | Ok e => NavigationTime e = 268603733000000000%Z /\ Speed e = 200 /\ Direction e = 172
            /\ DirectionHighestBit e = 1 /\ AltitudeSign e = 0 /\ Odometer e = 1
            /\ Latitude e = S754_finite false 7818515509593830 (-47)
            /\ VLD e = s1
  | _ => False
  end.
Proof. vm_compute. repeat split; reflexivity. Qed.
Example vec_crc : crc8 [49;50;51;52;53;54;55;56;57] = 0xF7 /\ crc16 [49;50;51;52;53;54;55;56;57] = 0x29B1.
Proof. vm_compute. split; reflexivity. Qed.
(** 2018-07-06T20:08:53Z *)
Example vec_rfc : rfc3339 268603733000000000 =
  [50;48;49;56;45;48;55;45;48;54;84;50;48;58;48;56;58;53;51;90].
Proof. vm_compute. reflexivity. Qed.
