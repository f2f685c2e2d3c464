(** Claims C22-C26 about the frame codecs. *)
From Verif Require Import Base BaseLemmas SpecFrames HpackDec Frames FramesProofs.

(** C22.  Every nine octets parse to the fields RFC 9113 section 4.1 gives them, and to
    no others; serialising yields octets with those fields. *)
Theorem C22_parse_exact : forall o, lenZ o = 9 -> all_bytes o ->
  exists h, fh_parse o = Ret h /\
    frame_header_octets (fh_length h) (fh_type h) (fh_flags h) (fh_stream h) o.
Proof. exact fh_parse_total. Qed.
Print Assumptions C22_parse_exact.

Theorem C22_parse_unique : forall len typ flags stream o,
  frame_header_octets len typ flags stream o -> fh_parse o = Ret (FH len typ flags stream).
Proof. exact fh_parse_spec. Qed.
Print Assumptions C22_parse_unique.

Theorem C22_serialize : forall len typ flags stream, is_byte typ -> is_byte flags ->
  frame_header_octets (len mod 2 ^ 24) typ flags (stream mod 2 ^ 31)
    (fh_serialize (FH len typ flags stream)).
Proof. exact fh_serialize_spec. Qed.
Print Assumptions C22_serialize.

Theorem C22_round_trip : forall len typ flags stream, is_byte typ -> is_byte flags ->
  fh_parse (fh_serialize (FH len typ flags stream)) =
    Ret (FH (len mod 2 ^ 24) typ flags (stream mod 2 ^ 31)).
Proof. exact fh_round_trip. Qed.
Print Assumptions C22_round_trip.

Theorem C22_stable : forall o h, lenZ o = 9 -> all_bytes o -> fh_parse o = Ret h ->
  fh_parse (fh_serialize h) = Ret h.
Proof. exact fh_stable. Qed.
Print Assumptions C22_stable.

(** Case: a frame header with the reserved bit set. *)
Example C22_case :
  let o := [0; 64; 1; 1; 37; 200; 0; 1; 5] in
  lenZ o = 9 /\ all_bytes o /\ fh_parse o = Ret (FH 16385 1 37 (72 * 2 ^ 24 + 261)) /\
  fh_serialize (FH 16385 1 37 (72 * 2 ^ 24 + 261)) = [0; 64; 1; 1; 37; 72; 0; 1; 5].
Proof. repeat split. now apply all_bytesb_ok. Qed.

(** C23. *)
Theorem C23_setting : forall s, 0 <= s_id s < 2 ^ 16 -> 0 <= s_value s < 2 ^ 32 ->
  setting_parse (setting_serialize s) = Ret s.
Proof. exact setting_round_trip. Qed.
Print Assumptions C23_setting.

Theorem C23_setting_layout : forall i v, lenZ i = 2 -> lenZ v = 4 -> all_bytes i -> all_bytes v ->
  setting_parse (i ++ v) = Ret (Setting (be i) (be v)).
Proof. exact setting_value. Qed.
Print Assumptions C23_setting_layout.

Theorem C23_goaway : forall g, 0 <= ga_error g < 2 ^ 32 ->
  goaway_parse (goaway_serialize g) = Ret (GoAway (ga_last_stream g mod 2 ^ 31) (ga_error g)).
Proof. exact goaway_round_trip. Qed.
Print Assumptions C23_goaway.

Theorem C23_goaway_layout : forall s e, lenZ s = 4 -> lenZ e = 4 -> all_bytes s -> all_bytes e ->
  goaway_parse (s ++ e) = Ret (GoAway (be s mod 2 ^ 31) (be e)).
Proof. exact goaway_value. Qed.
Print Assumptions C23_goaway_layout.

Theorem C23_window_update : forall v,
  window_update_parse (window_update_serialize v) = Ret (v mod 2 ^ 31).
Proof. exact window_update_round_trip. Qed.
Print Assumptions C23_window_update.

Theorem C23_window_update_layout : forall d, lenZ d = 4 -> all_bytes d ->
  window_update_parse d = Ret (be d mod 2 ^ 31).
Proof. exact window_update_value. Qed.
Print Assumptions C23_window_update_layout.

Example C23_case :
  setting_serialize (Setting 4 65535) = [0; 4; 0; 0; 255; 255] /\
  goaway_serialize (GoAway 2147483653 1) = [0; 0; 0; 5; 0; 0; 0; 1] /\
  window_update_parse [128; 0; 1; 2] = Ret 258.
Proof. repeat split. Qed.

(** C24. *)
Theorem C24_settings : forall f, all_bytes (f_payload f) ->
  (lenZ (f_payload f) mod 6 = 0 /\ exists es, read_settings f = Ret (Val es) /\
     settings_payload (f_payload f) (map pair_of es) /\ 6 * lenZ es = lenZ (f_payload f)) \/
  (lenZ (f_payload f) mod 6 <> 0 /\ read_settings f = Ret (Error InvalidSettingsSize)).
Proof. exact read_settings_spec. Qed.
Print Assumptions C24_settings.

Example C24_case :
  read_settings (Frame (FH 12 4 0 0) [0; 3; 0; 0; 0; 100; 0; 4; 0; 1; 0; 0]) =
    Ret (Val [Setting 3 100; Setting 4 65536]) /\
  read_settings (Frame (FH 13 4 0 0) [0; 3; 0; 0; 0; 100; 0; 4; 0; 1; 0; 0; 9]) =
    Ret (Error InvalidSettingsSize).
Proof. split; reflexivity. Qed.

(** C25 is false: a WINDOW_UPDATE payload of under four octets, a GOAWAY payload of
    under eight, and a HEADERS payload of under five with PRIORITY set. *)
Theorem C25_readers_refuted :
  exists f g h, all_bytes (f_payload f) /\ all_bytes (f_payload g) /\ all_bytes (f_payload h) /\
    f_type f = 8 /\ lenZ (f_payload f) = fh_length (f_header f) /\ read_window_update f = Undef /\
    f_type g = 7 /\ lenZ (f_payload g) = fh_length (f_header g) /\ read_goaway g = Undef /\
    f_type h = 1 /\ lenZ (f_payload h) = fh_length (f_header h) /\ headers_block h = Undef.
Proof.
  exists (Frame (FH 3 8 0 0) [0; 0; 1]), (Frame (FH 4 7 0 0) [0; 0; 0; 1]), (Frame (FH 1 1 36 1) [130]).
  repeat (split; [first [reflexivity|now apply all_bytesb_ok]|]). reflexivity.
Qed.
Print Assumptions C25_readers_refuted.

(** What holds instead: exactly those payloads are undefined, and SETTINGS never is. *)
Theorem C25_readers_partial : forall f, all_bytes (f_payload f) ->
  read_settings f <> Undef /\
  (read_window_update f <> Undef <-> 4 <= lenZ (f_payload f)) /\
  (read_goaway f <> Undef <-> 8 <= lenZ (f_payload f)) /\
  (headers_block f <> Undef <-> (has_flag f 32 = true -> 5 <= lenZ (f_payload f))).
Proof.
  intros f H. split; [now apply read_settings_defined|]. split; [apply read_window_update_defined|].
  split; [apply read_goaway_defined|apply headers_block_defined].
Qed.
Print Assumptions C25_readers_partial.

(** C26 is false for every padded frame: the block is never the fragment. *)
Theorem C26_padded_refuted : forall f fragment,
  headers_payload true (has_flag f 32) fragment (f_payload f) -> headers_block f <> Ret fragment.
Proof. exact headers_block_padded_wrong. Qed.
Print Assumptions C26_padded_refuted.

Example C26_padded_case :
  let f := Frame (FH 5 1 13 1) [3; 130; 0; 0; 0] in
  has_flag f 8 = true /\ headers_payload true (has_flag f 32) [130] (f_payload f) /\
  headers_block f = Ret [3; 130; 0; 0; 0].
Proof. repeat split. exists [], [0; 0; 0]. repeat split. easy. Qed.

(** Without padding, with or without priority, it is. *)
Theorem C26_unpadded_partial : forall f fragment,
  headers_payload false (has_flag f 32) fragment (f_payload f) -> headers_block f = Ret fragment.
Proof. exact headers_block_unpadded. Qed.
Print Assumptions C26_unpadded_partial.

Example C26_case :
  let f := Frame (FH 7 1 37 1) [128; 0; 0; 0; 15; 130; 132] in
  headers_payload false (has_flag f 32) [130; 132] (f_payload f) /\ headers_block f = Ret [130; 132].
Proof. split; [|reflexivity]. exists [128; 0; 0; 0; 15], []. repeat split. Qed.
