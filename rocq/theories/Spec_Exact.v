(** * Spec_Exact: what is left of a record when the hemispheres are forgotten. *)
From Verif Require Import GoBase Float64 SubRecords Records.

Section SpecExact.
Context {E : go_env}.

(** A position without its hemisphere flags; any other subrecord as it is. *)
Definition unsigned (d : srdata) : srdata :=
  match d with
  | SRPos e => SRPos {| NavigationTime := NavigationTime e; Latitude := Latitude e; Longitude := Longitude e;
      ALTE := ALTE e; LOHS := s0; LAHS := s0; MV := MV e; BB := BB e; CS := CS e; FIX := FIX e; VLD := VLD e;
      DirectionHighestBit := DirectionHighestBit e; AltitudeSign := AltitudeSign e; Speed := Speed e;
      Direction := Direction e; Odometer := Odometer e; DigitalInputs := DigitalInputs e; Source := Source e;
      Altitude := Altitude e |}
  | _ => d
  end.
(** Number, object and service of a record, and its subrecords without hemispheres. *)
Definition unsigned_record (r : sdr) : N * N * N * list srdata :=
  (RN r, OID r, SST r, map (fun d => unsigned (SRD d)) (RD r)).
End SpecExact.
