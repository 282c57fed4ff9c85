(** * Spec_Reuse: what a used structure contributes to Decode. *)
From Verif Require Import GoBase Float64 SubRecords Records Spec_Bits.

Section SpecReuse.
Context {E : go_env}.

(** Decode on a new structure of the type of [o]. *)
Definition fresh (o : srdata) (content : bytes) : res srdata :=
  match o with
  | SRPos _ => rmap SRPos (pos_decode content)
  | SRTerm _ => rmap SRTerm (term_decode content)
  | SRResp _ _ => srresp_decode content
  | SRResult _ => rmap SRResult (result_decode content)
  | SRExt _ => rmap SRExt (ext_decode content)
  | SRAd _ => rmap SRAd (ad_decode content)
  | SRState _ => rmap SRState (state_decode content)
  | SRLiquid _ => rmap SRLiquid (liquid_decode content)
  | SRAbsCntr _ => rmap SRAbsCntr (abs_cntr_decode content)
  | SRAuth _ => rmap SRAuth (auth_decode content)
  | SRCounters _ => rmap SRCounters (counters_decode content)
  | SRPlus _ => rmap SRPlus (plus_decode content)
  | SRAbsAn _ => rmap SRAbsAn (abs_an_decode content)
  | SRDisp _ => rmap SRDisp (disp_decode content)
  | SRNil => Panic
  end.

(** A field announced by a flag is the new one, else the old one. *)
Definition pick {A} (flag : gostr) (new old : A) : A := if is1 flag then new else old.
Definition pick8 {A} (f : oct gostr) (n o : oct A) : oct A :=
  mkOct (pick (o1 f) (o1 n) (o1 o)) (pick (o2 f) (o2 n) (o2 o)) (pick (o3 f) (o3 n) (o3 o)) (pick (o4 f) (o4 n) (o4 o))
        (pick (o5 f) (o5 n) (o5 o)) (pick (o6 f) (o6 n) (o6 o)) (pick (o7 f) (o7 n) (o7 o)) (pick (o8 f) (o8 n) (o8 o)).

(** [e], decoded from [content] by a new structure, as decoded by [o]: optional
    fields that are absent keep what [o] held.  Counters: a first counter
    comes with either of the first two flags, the second is never set. *)
Definition kept (o : srdata) (content : bytes) (e : srdata) : srdata :=
  match o, e with
  | SRPos o, SRPos e => SRPos
      {| NavigationTime := NavigationTime e; Latitude := Latitude e; Longitude := Longitude e;
         ALTE := ALTE e; LOHS := LOHS e; LAHS := LAHS e; MV := MV e; BB := BB e; CS := CS e; FIX := FIX e; VLD := VLD e;
         DirectionHighestBit := DirectionHighestBit e; AltitudeSign := AltitudeSign e; Speed := Speed e;
         Direction := Direction e; Odometer := Odometer e; DigitalInputs := DigitalInputs e; Source := Source e;
         Altitude := pick (ALTE e) (Altitude e) (Altitude o) |}
  | SRExt o, SRExt e => SRExt
      {| NSFE := NSFE e; SFE := SFE e; PFE := PFE e; HFE := HFE e; VFE := VFE e;
         VDOP := pick (VFE e) (VDOP e) (VDOP o); HDOP := pick (HFE e) (HDOP e) (HDOP o);
         PDOP := pick (PFE e) (PDOP e) (PDOP o); SAT := pick (SFE e) (SAT e) (SAT o); NS := pick (NSFE e) (NS e) (NS o) |}
  | SRTerm o, SRTerm e => SRTerm
      {| TID := TID e; MNE := MNE e; BSE := BSE e; NIDE := NIDE e; SSRA := SSRA e; LNGCE := LNGCE e; IMSIE := IMSIE e;
         IMEIE := IMEIE e; HDIDE := HDIDE e;
         HDID := pick (HDIDE e) (HDID e) (HDID o); IMEI := pick (IMEIE e) (IMEI e) (IMEI o);
         IMSI := pick (IMSIE e) (IMSI e) (IMSI o); LNGC := pick (LNGCE e) (LNGC e) (LNGC o);
         NID := pick (NIDE e) (NID e) (NID o); BS := pick (BSE e) (BS e) (BS o); MSISDN := pick (MNE e) (MSISDN e) (MSISDN o) |}
  | SRCounters o, SRCounters e => SRCounters
      {| CFE := CFE e;
         CN := let c := pick8 (CFE e) (CN e) (CN o) in
               mkOct (if is1 (o1 (CFE e)) || is1 (o2 (CFE e)) then o1 (CN e) else o1 (CN o)) (o2 (CN o))
                     (o3 c) (o4 c) (o5 c) (o6 c) (o7 c) (o8 c) |}
  | SRAd o, SRAd e => SRAd
      {| DIOE := DIOE e; DOUT := DOUT e; ASFE := ASFE e; ADIO := pick8 (DIOE e) (ADIO e) (ADIO o);
         ANS := pick8 (ASFE e) (ANS e) (ANS o) |}
  | SRAuth o, SRAuth e => SRAuth
      {| UNM := UNM e; UPSW := UPSW e;
         SSQ := if (length (UNM e) + length (UPSW e) + 2 <? length content)%nat then SSQ e else SSQ o |}
  | _, _ => e
  end.

End SpecReuse.
