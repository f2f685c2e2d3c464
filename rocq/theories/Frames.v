(** Model of lib/http2_frames.h and http2_frame_reader.{h,cpp}.  A fixed-extent span is
    a list; taking a sub-span of a shorter span is undefined. *)
From Verif Require Import Base HpackDec.

(** load_uint16_be, load_uint24_be, load_uint32_be, http2_frames.h:7-19. *)
Definition load_uint16_be (d0 d1 : Z) : Z := Z.lor (Z.shiftl d0 8) d1.
(** http2_frames.h:11-14. *)
Definition load_uint24_be (d0 d1 d2 : Z) : Z :=
  Z.lor (Z.lor (Z.shiftl d0 16) (Z.shiftl d1 8)) d2.
(** http2_frames.h:16-19. *)
Definition load_uint32_be (d0 d1 d2 d3 : Z) : Z :=
  Z.lor (Z.lor (Z.lor (Z.shiftl d0 24) (Z.shiftl d1 16)) (Z.shiftl d2 8)) d3.

(** store_uint16_be, store_uint24_be, store_uint32_be, http2_frames.h:21-37. *)
Definition store_uint16_be (v : Z) : bytes :=
  [u8 (Z.land (Z.shiftr v 8) 255); u8 (Z.land v 255)].
(** http2_frames.h:26-30. *)
Definition store_uint24_be (v : Z) : bytes :=
  [u8 (Z.land (Z.shiftr v 16) 255); u8 (Z.land (Z.shiftr v 8) 255); u8 (Z.land v 255)].
(** http2_frames.h:32-37. *)
Definition store_uint32_be (v : Z) : bytes :=
  [u8 (Z.land (Z.shiftr v 24) 255); u8 (Z.land (Z.shiftr v 16) 255);
   u8 (Z.land (Z.shiftr v 8) 255); u8 (Z.land v 255)].

(** struct Http2FrameHeader, http2_frames.h:39-60. *)
Record frame_header := FH { fh_length : Z; fh_type : Z; fh_flags : Z; fh_stream : Z }.

(** Http2FrameHeader::parse, http2_frames.h:47-52, on a span of nine octets. *)
Definition fh_parse (d : bytes) : out frame_header :=
  match d with
  | [d0; d1; d2; d3; d4; d5; d6; d7; d8] =>
    Ret (FH (load_uint24_be d0 d1 d2) d3 d4 (Z.land (load_uint32_be d5 d6 d7 d8) 2147483647))
  | _ => Undef
  end.

(** Http2FrameHeader::serialize, http2_frames.h:54-59. *)
Definition fh_serialize (h : frame_header) : bytes :=
  store_uint24_be (fh_length h) ++ [fh_type h; fh_flags h] ++
  store_uint32_be (Z.land (fh_stream h) 2147483647).

(** struct Http2Setting, http2_frames.h:62-79. *)
Record setting := Setting { s_id : Z; s_value : Z }.
(** Http2Setting::parse, http2_frames.h:68-73. *)
Definition setting_parse (d : bytes) : out setting :=
  match d with
  | [d0; d1; d2; d3; d4; d5] => Ret (Setting (load_uint16_be d0 d1) (load_uint32_be d2 d3 d4 d5))
  | _ => Undef
  end.
(** Http2Setting::serialize, http2_frames.h:75-78. *)
Definition setting_serialize (s : setting) : bytes :=
  store_uint16_be (s_id s) ++ store_uint32_be (s_value s).

(** struct Http2GoAwayPayload, http2_frames.h:81-98. *)
Record goaway := GoAway { ga_last_stream : Z; ga_error : Z }.
(** Http2GoAwayPayload::parse, http2_frames.h:87-92. *)
Definition goaway_parse (d : bytes) : out goaway :=
  match d with
  | [d0; d1; d2; d3; d4; d5; d6; d7] =>
    Ret (GoAway (Z.land (load_uint32_be d0 d1 d2 d3) 2147483647) (load_uint32_be d4 d5 d6 d7))
  | _ => Undef
  end.
(** Http2GoAwayPayload::serialize, http2_frames.h:94-97. *)
Definition goaway_serialize (g : goaway) : bytes :=
  store_uint32_be (Z.land (ga_last_stream g) 2147483647) ++ store_uint32_be (ga_error g).

(** struct Http2WindowUpdate, http2_frames.h:100-114. *)
Definition window_update_parse (d : bytes) : out Z :=
  match d with
  | [d0; d1; d2; d3] => Ret (Z.land (load_uint32_be d0 d1 d2 d3) 2147483647)
  | _ => Undef
  end.
(** Http2WindowUpdate::serialize, http2_frames.h:111-113. *)
Definition window_update_serialize (inc : Z) : bytes := store_uint32_be (Z.land inc 2147483647).

(** payload_.subspan<0, n>() / subspan(n): undefined if the span is shorter than n. *)
Definition subspan_first (n : nat) (d : bytes) : out bytes :=
  if (length d <? n)%nat then Undef else Ret (firstn n d).
(** subspan(n), http2_frame_reader.h:61-66. *)
Definition subspan_from (n : nat) (d : bytes) : out bytes :=
  if (length d <? n)%nat then Undef else Ret (skipn n d).

(** class Http2FrameReader, http2_frame_reader.h:11-71: a header and a payload. *)
Record frame := Frame { f_header : frame_header; f_payload : bytes }.
(** type, http2_frame_reader.h:16-18. *)
Definition f_type (f : frame) : Z := fh_type (f_header f).
(** flags, http2_frame_reader.h:20-22. *)
Definition f_flags (f : frame) : Z := fh_flags (f_header f).
(** stream_id, http2_frame_reader.h:24-26. *)
Definition f_stream (f : frame) : Z := fh_stream (f_header f).

(** has_flag, http2_frame_reader.h:36-38. *)
Definition has_flag (f : frame) (flag : Z) : bool := negb (Z.land (f_flags f) flag =? 0).

(** read_settings, http2_frame_reader.cpp:11-29: [n] entries from the front. *)
Fixpoint read_entries (n : nat) (d : bytes) : out (list setting) :=
  match n with
  | O => Ret []
  | S k =>
    let! e := subspan_first 6 d in
    let! s := setting_parse e in
    let! rest := read_entries k (skipn 6 d) in
    Ret (s :: rest)
  end.
(** read_settings, http2_frame_reader.cpp:11-29. *)
Definition read_settings (f : frame) : out (expected frame_error (list setting)) :=
  let p := f_payload f in
  if negb (lenZ p mod 6 =? 0) then Ret (Error InvalidSettingsSize)
  else let! l := read_entries (Z.to_nat (lenZ p / 6)) p in Ret (Val l).

(** read_window_update, http2_frame_reader.cpp:31-33. *)
Definition read_window_update (f : frame) : out Z :=
  let! d := subspan_first 4 (f_payload f) in window_update_parse d.

(** read_goaway, http2_frame_reader.cpp:35-37. *)
Definition read_goaway (f : frame) : out goaway :=
  let! d := subspan_first 8 (f_payload f) in goaway_parse d.

(** headers_block, http2_frame_reader.h:61-66. *)
Definition headers_block (f : frame) : out bytes :=
  if has_flag f 32 then subspan_from 5 (f_payload f) else Ret (f_payload f).
