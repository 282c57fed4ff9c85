(** * Spec_Flags: flag strings and the flag byte they are written to. *)
From Verif Require Import GoBase Crc Float64 SubRecords Records Package Spec_Bits Spec_Wf Spec_Rec Spec_Pkg.

Section SpecFlags.
Context {E : go_env}.

(** A byte as eight binary digits, most significant first. *)
Definition shown (v : N) : gostr :=
  bit_str (N.testbit v 7) ++ bit_str (N.testbit v 6) ++ bit_str (N.testbit v 5) ++ bit_str (N.testbit v 4) ++
  bit_str (N.testbit v 3) ++ bit_str (N.testbit v 2) ++ bit_str (N.testbit v 1) ++ bit_str (N.testbit v 0).
(** A text cut into pieces of the given widths. *)
Fixpoint cut (ws : list nat) (s : gostr) : list gostr :=
  match ws with [] => [] | w :: ws' => firstn w s :: cut ws' (skipn w s) end.
(** Each string is binary digits of its width. *)
Definition documented_widths (ws : list nat) (ss : list gostr) : Prop :=
  Forall2 (fun w s => bits_ok w s = true) ws ss.

(** The value of a text of binary digits. *)
Definition bin_val (s : gostr) : N := fold_left (fun acc c => 2 * acc + (c - 48)) s 0.
(** A non-empty text of binary digits whose value fits a byte. *)
Definition binary_byte (s : gostr) : Prop :=
  s <> [] /\ Forall (fun c => c = 48 \/ c = 49) s /\ bin_val s < 256.

(** The flag bytes: offset in the encoded form, widths, and the strings of the
    structure in that order. *)
Definition pkg_flag_strings (p : package) : list gostr := [pPRF p; pRTE p; pENA p; pCMP p; pPR p].
Definition pkg_widths : list nat := [2; 1; 2; 1; 2]%nat.
Definition sdr_flag_strings (s : sdr) : list gostr := [SSOD s; RSOD s; GRP s; RPP s; TMFE s; EVFE s; OBFE s].
Definition sdr_widths : list nat := [1; 1; 1; 2; 1; 1; 1]%nat.
Definition ones : list nat := [1; 1; 1; 1; 1; 1; 1; 1]%nat.
(** Subrecords.  Constant digits are part of the text; the second flag byte of
    the sensor data is in the order the library writes it (see C23). *)
Definition sr_flags (d : srdata) : list (nat * list nat * list gostr) :=
  match d with
  | SRPos e => [(12%nat, ones, [ALTE e; LOHS e; LAHS e; MV e; BB e; CS e; FIX e; VLD e])]
  | SRTerm e => [(4%nat, ones, [MNE e; BSE e; NIDE e; SSRA e; LNGCE e; IMSIE e; IMEIE e; HDIDE e])]
  | SRExt e => [(0%nat, [3; 1; 1; 1; 1; 1]%nat, [[48; 48; 48]; NSFE e; SFE e; PFE e; HFE e; VFE e])]
  | SRState e => [(4%nat, [5; 1; 1; 1]%nat, [[48; 48; 48; 48; 48]; NMS e; IBU e; BBU e])]
  | SRLiquid e => [(0%nat, [1; 1; 2; 1; 3]%nat, [[48]; LLSEF e; LLSVU e; RDF e; fmt_b 3 (LLSN e)])]
  | SRCounters e => let c := CFE e in
      [(0%nat, ones, [o8 c; o7 c; o6 c; o5 c; o4 c; o3 c; o2 c; o1 c])]
  | SRAd e => let c := DIOE e in let a := ASFE e in
      [(0%nat, ones, [o8 c; o7 c; o6 c; o5 c; o4 c; o3 c; o2 c; o1 c]);
       (2%nat, ones, [o1 a; o2 a; o3 a; o4 a; o5 a; o6 a; o7 a; o8 a])]
  | _ => []
  end.

(** What comes back as given.  For most subrecords: flags of the documented
    widths, present fields that fit, absent fields zero or empty
    ([Spec_Wf.wf_sr]).  A position must also lie on the grid of the wire (whole
    seconds, 32 bit coordinates); of the counters the second one must be absent,
    or both the first two zero; the analogue sensor flags must read the same from
    both ends (C23); an EGTS+ message must survive the protobuf library. *)
Definition survives (d : srdata) : Prop :=
  match d with
  | SRPos e => wf_pos e = true /\ quant_pos e = e
  | SRCounters e => full_counters e = true /\ (o2 (CFE e) = s0 \/ (o1 (CN e) = 0 /\ o2 (CN e) = 0))
  | SRPlus m => exists b, pb_marshal m = Some b /\ pb_unmarshal b = Some m
  | _ => wf_sr d
  end.

End SpecFlags.
