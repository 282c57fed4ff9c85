(** * Alloc: the data buffers Decode holds at the same time.

    service_data_records.go:99 allocates a buffer of RecordLength bytes for each
    record and egts_pkg.go:108 one of FrameDataLength bytes for the frame,
    whatever is left of the input.  record_data.go:24-37 and
    egts_sr_response.go:22-34 hand sub-slices of it to the nested decoders
    without copying, and the loops at service_data_records.go:40 and
    record_data.go:25 read on from it afterwards, so a record's buffer is
    reachable while everything nested in it is decoded; it is garbage once the
    loop goes on to the next record.  The functions below follow the decoders of
    Records.v and give the largest sum of the sizes of such buffers that are
    reachable at once.  Simplifications: the fixed-size buffers (2 to 55 bytes),
    the decoded structures and the error texts are not counted. *)
From Verif Require Import GoBase Crc Float64 SubRecords Records Package Spec_Pkg.

Section Alloc.
Context {E : go_env}.

(** service_data_records.go:41-95: RecordLength, and what follows the fixed
    part of the record. *)
Definition rec_head (r : bytes) : res (N * bytes) :=
  '(b, r) <- reader_read (zeros 2) r ;;
  let rl := le_dec b in
  '(b, r) <- reader_read b r ;;
  '(flags, r) <- read_byte r ;;
  let fb := fmt_b 8 flags in
  '(_, r) <- opt4 (fbit 7 fb) r ;;
  '(_, r) <- opt4 (fbit 6 fb) r ;;
  '(_, r) <- opt4 (fbit 5 fb) r ;;
  '(_, r) <- read_byte r ;;
  '(_, r) <- read_byte r ;;
  Ok (rl, r).

(** service_data_records.go:97-107: the buffer, and what is held while it is
    decoded. *)
Definition sdr_held (rdsm : bytes -> N) (r : bytes) : N :=
  match rec_head r with
  | Ok (rl, r) =>
      match r with
      | [] => 0
      | _ :: _ => rl + rdsm (copy_into (zeros (N.to_nat rl)) r)
      end
  | _ => 0
  end.

(** service_data_records.go:40-111 *)
Fixpoint sds_held_loop (rdsdec : bytes -> res (list record_data)) (rdsm : bytes -> N)
    (fuel : nat) (r : bytes) : N :=
  match r with
  | [] => 0
  | _ :: _ =>
      match fuel with
      | O => 0
      | S fuel' =>
          N.max (sdr_held rdsm r)
            match sdr_decode rdsdec r with
            | Ok (_, r') => sds_held_loop rdsdec rdsm fuel' r'
            | _ => 0
            end
      end
  end.

(** record_data.go:25-84 *)
Fixpoint rds_held_loop (dec : N -> N -> bytes -> res srdata) (subm : N -> bytes -> N)
    (fuel : nat) (r : bytes) : N :=
  match r with
  | [] => 0
  | _ :: _ =>
      match fuel with
      | O => 0
      | S fuel' =>
          match ('(t, r) <- read_byte r ;; '(lb, r) <- buffer_read (zeros 2) r ;; Ok (t, le_dec lb, r)) with
          | Ok (t, len, r) =>
              let '(sub, r) := buffer_next len r in
              N.max (subm t sub)
                match dec t len sub with
                | Ok _ => rds_held_loop dec subm fuel' r
                | _ => 0
                end
          | _ => 0
          end
      end
  end.

(** record_data.go:39-82: of the subrecord decoders only that of confirmations
    (egts_sr_response.go:17-38) decodes records. *)
Fixpoint sub_held (depth : nat) (t : N) (b : bytes) {struct depth} : N :=
  match depth with
  | O => 0
  | S d =>
      let rds := fun rb => rds_loop (sub_decode d) (length rb) rb in
      let rdsm := fun rb => rds_held_loop (sub_decode d) (sub_held d) (length rb) rb in
      if t =? 0 then
        match ('(_, r) <- buffer_read (zeros 2) b ;; '(_, r) <- read_byte r ;; Ok r) with
        | Ok r => sds_held_loop rds rdsm (length r) r
        | _ => 0
        end
      else 0
  end.

(** ServiceDataSet.Decode *)
Definition sds_held (b : bytes) : N :=
  sds_held_loop (rds_decode_d (depth_for b))
    (fun rb => rds_held_loop (sub_decode (depth_for b)) (sub_held (depth_for b)) (length rb) rb) (length b) b.

(** PtResponse.Decode (egts_pt_response.go:17-42) *)
Definition ptr_held (b : bytes) : N :=
  match ('(_, r) <- buffer_read (zeros 2) b ;; '(_, r) <- read_byte r ;; Ok r) with
  | Ok r => sds_held r
  | _ => 0
  end.

(** Package.Decode: egts_pkg.go:104-126, once the header checksum is right. *)
Definition pkg_held (content : slice) : N :=
  let d := sl_data content in
  if (length d <=? hcs_pos d)%nat then 0
  else match reslice content 0 (u8 (decl_hl d + 255)) with
  | Ok h =>
      if byte_at d (hcs_pos d) =? crc8 h then
        decl_fdl d +
        match reader_read (zeros (N.to_nat (decl_fdl d))) (skipn (frame_pos d) d) with
        | Ok (fb, _) =>
            if byte_at d 9 =? PtAppdataPacket then sds_held fb
            else if byte_at d 9 =? PtResponsePacket then ptr_held fb else 0
        | _ => 0
        end
      else 0
  | _ => 0
  end.

End Alloc.
