(** The unit tests of /repo/test/unit and some of /repo/test/integration, run on the model.
    They show nothing about other inputs; they are here because they compare the model with
    what the authors of the program expect of it. *)
From Verif Require Import Base IntCodec Huffman HuffmanTable DynTable HpackDec HpackEnc Frames Http FileSys Files Router App.

(** ** test/unit/hpack/test_bit_reader.cpp, test_byte_reader.cpp *)
Example bit_reader_reads : bit_reader [159; 250] =
  [true; false; false; true; true; true; true; true; true; true; true; true; true; false; true; false].
Proof. reflexivity. Qed.
Example byte_reader :
  read_byte [1; 2; 3] = Some (1, [2; 3]) /\ read_byte [2; 3] = Some (2, [3]) /\ read_byte [3] = Some (3, []) /\
  read_bytes [1; 2; 3] 2 = Some ([1; 2], [3]) /\ peek_byte [1; 2; 3] = Some 1 /\
  has_bytes [] 1 = false /\ has_bytes [3] 1 = true /\ read_bytes [1; 2; 3] 3 = Some ([1; 2; 3], []) /\
  read_bytes [1; 2; 3] 4 = None /\ read_byte [] = None /\ peek_byte [] = None.
Proof. repeat split. Qed.

(** ** test/unit/hpack/test_int_decoder.cpp, test_int_encoder.cpp *)
Example int_decoder_within :
  fst (int_decode 8 [127]) = Val 127 /\ fst (int_decode 6 [127; 6]) = Val 69 /\ fst (int_decode 6 [126]) = Val 62 /\
  fst (int_decode 4 [242]) = Val 2 /\ fst (int_decode 2 [253]) = Val 1.
Proof. vm_compute. repeat split. Qed.
(** "prefix 0 (not expected)" requires the value 0.  There is none: the mask is 0, so that a
    continuation is expected, and the test dereferences a std::expected that holds the error
    NotEnoughBytes (enumerator 0). *)
Example int_decoder_prefix_0 : fst (int_decode 0 [18]) = Error NotEnoughBytes.
Proof. reflexivity. Qed.
Example int_decoder_outside :
  fst (int_decode 8 [255; 1]) = Val 256 /\ fst (int_decode 4 [255; 255; 1]) = Val (15 + 127 + 128) /\
  fst (int_decode 8 [255]) = Error NotEnoughBytes /\
  fst (int_decode 7 [255; 255; 255; 255; 255; 16]) = Error IntegerOverflow /\
  fst (int_decode 8 (255 :: repeat 128 1000 ++ [0])) = Error TooManyContinuationBytes.
Proof. vm_compute. repeat split. Qed.
Example int_encoder :
  int_encode 30 5 = Ret [30] /\ int_encode 126 7 = Ret [126] /\ int_encode 31 5 = Ret [31; 0] /\ int_encode 127 7 = Ret [127; 0] /\
  int_encode 1023 7 = Ret [127; 128; 7] /\ int_encode 30 0 = Throw /\ int_encode 126 9 = Throw.
Proof. vm_compute. repeat split. Qed.

(** ** test/unit/hpack/test_huffman_tree.cpp *)
Definition new_tree : tree := Node Null Null None.
Example huffman_two_symbols :
  (let! t := insert_symbol new_tree 0 8184 13 in let! t := insert_symbol t 35 4090 12 in huffman_decode t [255; 199; 253; 127])
  = Ret (Val [0; 35]).
Proof. vm_compute. reflexivity. Qed.
Example huffman_all_zeros :
  (let! t := insert_symbol new_tree 48 0 5 in huffman_decode t (bw_finalize (write_bits bw_init 0 5))) = Ret (Val [48]).
Proof. vm_compute. reflexivity. Qed.
Example huffman_all_codes :
  (let! T := huffman_tree in
   let! r := huffman_decode T (bw_finalize (fold_left (fun w c => write_bits w (fst c) (snd c)) HUFFMAN_CODES bw_init)) in
   match r with Val symbols => Ret (lenZ symbols =? lenZ HUFFMAN_CODES) | Error _ => Throw end) = Ret true.
Proof. vm_compute. reflexivity. Qed.
Example huffman_not_padding : (let! t := insert_symbol new_tree 0 1 1 in huffman_decode t [0]) = Ret (Error InvalidCode).
Proof. vm_compute. reflexivity. Qed.

(** ** test/unit/hpack/test_dynamic_table.cpp *)
Definition hd (n v : string) : header := Hdr (str n) (str v).
(** Used in the tests of test/unit/hpack/test_dynamic_table.cpp. *)
Fixpoint inserts (t : dyn_table) (hs : list header) : out dyn_table :=
  match hs with [] => Ret t | h :: hs' => let! t := dt_insert t h in inserts t hs' end.
(** Used in the tests of test/unit/hpack/test_dynamic_table.cpp. *)
Definition sizes (t : out dyn_table) : out (Z * Z) := let! t := t in Ret (dt_count t, dt_size t).
Example table_tests :
  (let! t := inserts (dt_init DEFAULT_MAX_TABLE_SIZE) [hd "foo" "bar"; hd "foo" "baz"] in Ret (dt_find t (hd "foo" "baz"))) = Ret (Some 0) /\
  sizes (inserts (dt_init DEFAULT_MAX_TABLE_SIZE) [hd "foo" "bar"]) = Ret (1, 3 + 3 + 32) /\
  sizes (inserts (dt_init 50) [hd "foo" "bar"; hd "fo1" "b"]) = Ret (1, 36) /\
  sizes (inserts (dt_init 50) [hd "foo" "baaar"; Hdr (repeat 65 8) (repeat 65 11)]) = Ret (0, 0) /\
  sizes (inserts (dt_init 100) [hd "small" "header"]) = Ret (1, 43) /\
  (let huge := Hdr (repeat 97 30) (repeat 98 39) in
   sizes (inserts (dt_init 100) [hd "small" "header"; huge]) = Ret (0, 0) /\
   (let! t := inserts (dt_init 100) [hd "small" "header"; huge] in Ret (dt_find t huge)) = Ret None).
Proof. vm_compute. repeat split. Qed.
Example table_resized :
  let t := inserts (dt_init 120) [hd "1234" "1234"; hd "a234" "1234"; hd "b234" "1234"] in
  let resized ns := sizes (fold_left (fun t n => let! t := t in dt_set_max t n) ns t) in
  resized [81] = Ret (2, 80) /\ resized [81; 41] = Ret (1, 40) /\ resized [81; 41; 0] = Ret (0, 0).
Proof. vm_compute. repeat split. Qed.

(** ** test/unit/hpack/test_hb_decoder.cpp *)
Definition chrome_block : bytes := [
  130; 65; 138; 160; 228; 29; 19; 157; 9; 184; 243; 77; 51; 135; 4; 134; 97; 9; 26; 76; 70; 63; 64; 133; 174; 193;
  205; 72; 255; 134; 168; 235; 16; 100; 156; 191; 88; 134; 168; 235; 16; 100; 156; 191; 64; 135; 65; 72; 177; 39;
  90; 209; 255; 184; 254; 111; 79; 97; 233; 53; 180; 255; 63; 125; 224; 254; 66; 208; 191; 159; 165; 63; 156; 71;
  60; 212; 21; 75; 211; 216; 122; 75; 252; 253; 247; 131; 249; 11; 66; 254; 126; 148; 254; 116; 157; 49; 66; 165;
  219; 7; 84; 159; 207; 223; 120; 63; 151; 223; 254; 127; 64; 139; 65; 72; 177; 39; 90; 209; 173; 73; 227; 53; 5;
  2; 63; 48; 64; 141; 65; 72; 177; 39; 90; 209; 173; 93; 3; 76; 167; 178; 159; 7; 34; 109; 97; 99; 79; 83; 34; 64;
  3; 100; 110; 116; 1; 49; 64; 146; 182; 185; 172; 28; 133; 88; 213; 32; 164; 182; 194; 173; 97; 123; 90; 84; 37;
  31; 1; 49; 122; 217; 208; 127; 102; 162; 129; 176; 218; 224; 83; 250; 208; 50; 26; 164; 157; 19; 253; 169; 146;
  164; 150; 133; 52; 12; 138; 106; 220; 167; 226; 129; 4; 65; 110; 39; 127; 181; 33; 174; 186; 11; 200; 177; 230;
  50; 88; 109; 151; 87; 101; 197; 63; 172; 216; 247; 232; 207; 244; 165; 6; 234; 85; 49; 20; 157; 79; 253; 169;
  122; 123; 15; 73; 88; 11; 66; 92; 11; 129; 112; 41; 184; 114; 142; 195; 48; 219; 46; 174; 203; 159; 83; 229; 73;
  124; 165; 137; 211; 77; 31; 67; 174; 186; 12; 65; 164; 199; 169; 143; 51; 166; 154; 63; 223; 154; 104; 250; 29;
  117; 208; 98; 13; 38; 61; 76; 121; 166; 143; 190; 208; 1; 119; 254; 141; 72; 230; 43; 3; 238; 105; 126; 141; 72;
  230; 43; 30; 11; 29; 127; 70; 164; 115; 21; 129; 215; 84; 223; 95; 44; 124; 253; 246; 128; 11; 189; 244; 58;
  235; 160; 196; 26; 76; 122; 152; 65; 166; 168; 178; 44; 95; 36; 156; 117; 76; 95; 190; 240; 70; 207; 223; 104;
  0; 187; 191; 64; 138; 65; 72; 180; 165; 73; 39; 89; 6; 73; 127; 131; 168; 245; 23; 64; 138; 65; 72; 180; 165;
  73; 39; 90; 147; 200; 95; 134; 168; 125; 205; 48; 210; 95; 64; 138; 65; 72; 180; 165; 73; 39; 90; 212; 22; 207;
  2; 63; 49; 64; 138; 65; 72; 180; 165; 73; 39; 90; 66; 161; 63; 134; 144; 228; 182; 146; 212; 159; 80; 146; 155;
  217; 171; 250; 82; 66; 203; 64; 210; 95; 165; 35; 179; 233; 79; 104; 76; 159; 81; 139; 45; 75; 112; 221; 244;
  90; 190; 251; 64; 5; 223; 64; 134; 174; 195; 30; 195; 39; 215; 133; 182; 0; 125; 40; 111].
(** Used in the tests of test/unit/hpack/test_hb_decoder.cpp. *)
Definition chrome_block2 : bytes := [
  130; 206; 135; 4; 145; 97; 9; 26; 76; 70; 8; 132; 49; 72; 205; 82; 228; 66; 63; 206; 240; 63; 205; 204; 201;
  198; 203; 200; 202; 83; 142; 73; 124; 165; 130; 33; 31; 95; 44; 124; 253; 246; 128; 11; 135; 127; 6; 136; 64;
  233; 42; 199; 176; 211; 26; 175; 127; 6; 133; 168; 235; 16; 246; 35; 127; 5; 132; 66; 125; 80; 95; 115; 149;
  157; 41; 173; 23; 24; 98; 131; 144; 116; 78; 116; 38; 227; 205; 52; 203; 8; 72; 210; 98; 49; 197; 196; 127; 4;
  3; 117; 61; 48].
(** Used in the tests of test/unit/hpack/test_hb_decoder.cpp. *)
Definition chrome_frame : bytes := [
  0; 1; 237; 1; 37; 0; 0; 0; 1; 128; 0; 0; 0; 255; 130; 65; 138; 160; 228; 29; 19; 157; 9; 184; 243; 77; 51; 135;
  4; 134; 97; 9; 26; 76; 70; 63; 64; 133; 174; 193; 205; 72; 255; 134; 168; 235; 16; 100; 156; 191; 88; 134; 168;
  235; 16; 100; 156; 191; 64; 135; 65; 72; 177; 39; 90; 209; 255; 184; 254; 111; 79; 97; 233; 53; 180; 255; 63;
  125; 224; 254; 66; 208; 191; 159; 165; 63; 156; 71; 60; 212; 21; 75; 211; 216; 122; 75; 252; 253; 247; 131; 249;
  11; 66; 254; 126; 148; 254; 116; 157; 49; 66; 165; 219; 7; 84; 159; 207; 223; 120; 63; 151; 223; 254; 127; 64;
  139; 65; 72; 177; 39; 90; 209; 173; 73; 227; 53; 5; 2; 63; 48; 64; 141; 65; 72; 177; 39; 90; 209; 173; 93; 3;
  76; 167; 178; 159; 7; 34; 109; 97; 99; 79; 83; 34; 64; 3; 100; 110; 116; 1; 49; 64; 146; 182; 185; 172; 28; 133;
  88; 213; 32; 164; 182; 194; 173; 97; 123; 90; 84; 37; 31; 1; 49; 122; 217; 208; 127; 102; 162; 129; 176; 218;
  224; 83; 250; 208; 50; 26; 164; 157; 19; 253; 169; 146; 164; 150; 133; 52; 12; 138; 106; 220; 167; 226; 129; 4;
  65; 110; 39; 127; 181; 33; 174; 186; 11; 200; 177; 230; 50; 88; 109; 151; 87; 101; 197; 63; 172; 216; 247; 232;
  207; 244; 165; 6; 234; 85; 49; 20; 157; 79; 253; 169; 122; 123; 15; 73; 88; 11; 66; 92; 11; 129; 112; 41; 184;
  114; 142; 195; 48; 219; 46; 174; 203; 159; 83; 229; 73; 124; 165; 137; 211; 77; 31; 67; 174; 186; 12; 65; 164;
  199; 169; 143; 51; 166; 154; 63; 223; 154; 104; 250; 29; 117; 208; 98; 13; 38; 61; 76; 121; 166; 143; 190; 208;
  1; 119; 254; 141; 72; 230; 43; 3; 238; 105; 126; 141; 72; 230; 43; 30; 11; 29; 127; 70; 164; 115; 21; 129; 215;
  84; 223; 95; 44; 124; 253; 246; 128; 11; 189; 244; 58; 235; 160; 196; 26; 76; 122; 152; 65; 166; 168; 178; 44;
  95; 36; 156; 117; 76; 95; 190; 240; 70; 207; 223; 104; 0; 187; 191; 64; 138; 65; 72; 180; 165; 73; 39; 89; 6;
  73; 127; 131; 168; 245; 23; 64; 138; 65; 72; 180; 165; 73; 39; 90; 147; 200; 95; 134; 168; 125; 205; 48; 210;
  95; 64; 138; 65; 72; 180; 165; 73; 39; 90; 212; 22; 207; 2; 63; 49; 64; 138; 65; 72; 180; 165; 73; 39; 90; 66;
  161; 63; 134; 144; 228; 182; 146; 212; 159; 80; 146; 155; 217; 171; 250; 82; 66; 203; 64; 210; 95; 165; 35; 179;
  233; 79; 104; 76; 159; 81; 139; 45; 75; 112; 221; 244; 90; 190; 251; 64; 5; 223; 64; 134; 174; 195; 30; 195; 39;
  215; 133; 182; 0; 125; 40; 111].
(** Blocks one after the other: the results and the number of entries and size of the table. *)
Fixpoint blocks (T : tree) (t : dyn_table) (bs : list bytes) : out (list (expected frame_error (list header)) * (Z * Z)) :=
  match bs with
  | [] => Ret ([], (dt_count t, dt_size t))
  | b :: bs' => let! (r, t) := hpack_decode T t b in let! (rs, s) := blocks T t bs' in Ret (r :: rs, s)
  end.
(** Used in the tests of test/unit/hpack/test_hb_decoder.cpp. *)
Definition decoded (max : Z) (bs : list bytes) : out (list (expected frame_error (list header)) * (Z * Z)) :=
  let! T := huffman_tree in blocks T (dt_init max) bs.
(** Used in the tests of test/unit/hpack/test_hb_decoder.cpp. *)
Definition fresh (bs : list bytes) := decoded DEFAULT_MAX_TABLE_SIZE bs.
(** Used in the tests of test/unit/hpack/test_hb_decoder.cpp. *)
Definition localhost : bytes := [65; 134; 160; 228; 29; 19; 157; 9].
Example decodes_static :
  fresh [[130; 132; 135]] = Ret ([Val [hd ":method" "GET"; hd ":path" "/"; hd ":scheme" "https"]], (0, 0)) /\
  fresh [localhost] = Ret ([Val [hd ":authority" "localhost"]], (1, 51)) /\
  fresh [[4; 132; 98; 51; 201; 235]] = Ret ([Val [hd ":path" "/body"]], (0, 0)) /\
  fresh [[129; 189]] = Ret ([Val [hd ":authority" ""; hd "www-authenticate" ""]], (0, 0)) /\
  fresh [[128; 190]] = Ret ([Error ProtocolError], (0, 0)).
Proof. vm_compute. repeat split. Qed.
Example decodes_dynamic :
  (let r := Val [hd ":method" "GET"; hd ":path" "/"; hd ":authority" "localhost"; hd ":scheme" "https"] in
   fresh [[130; 132] ++ localhost ++ [135]; [130; 132; 190; 135]] = Ret ([r; r], (1, 51))) /\
  fresh [[64; 130; 148; 231; 131; 140; 118; 127]; [126; 145; 140; 118; 41; 24; 253; 169; 24; 236; 82; 49; 251; 82; 49; 216; 164; 99; 247]]
  = Ret ([Val [hd "foo" "bar"]; Val [hd "foo" "bar baz bar baz bar baz"]], (2, 96)) /\
  fresh [[64; 132; 242; 180; 167; 63; 3; 98; 97; 114]] = Ret ([Val [hd "x-foo" "bar"]], (1, 40)) /\
  (let value := [154; 148; 231; 82; 49; 216; 164; 99; 246; 164; 167; 58; 145; 142; 197; 35; 31; 181; 37; 57; 212; 140; 118; 41; 24; 253; 255] in
   let r := Val [hd "x-foo" "foo bar baz foo bar baz foo bar baz"] in
   fresh [[64; 132; 242; 180; 167; 63] ++ value] = Ret ([r], (1, 72)) /\ fresh [[0; 132; 242; 180; 167; 63] ++ value] = Ret ([r], (0, 0))) /\
  fresh [[16; 132; 242; 180; 167; 63; 3; 98; 97; 114]] = Ret ([Val [hd "x-foo" "bar"]], (0, 0)).
Proof. vm_compute. repeat split. Qed.
(** "returns error for invalid first bytes" requires an error for the block 0xff.  The decoder
    uses the value of the integer there is not, which is undefined (C14); the test passes if
    the enumerator of the error, 0, is what is read. *)
Example decodes_ff : fresh [[255]] = Undef.
Proof. vm_compute. reflexivity. Qed.
(** Used in the tests of test/unit/hpack/test_hb_decoder.cpp. *)
Definition headers_in (r : expected frame_error (list header)) : option Z := match r with Val hs => Some (lenZ hs) | Error _ => None end.
Example decodes_chrome : (let! (rs, _) := fresh [chrome_block; chrome_block2] in Ret (map headers_in rs)) = Ret [Some 20; Some 19].
Proof. vm_compute. reflexivity. Qed.
(** The limit on strings is in C15 (its test takes long to evaluate). *)
Definition four : out (list bytes) :=
  let! (bs, _) := encode_seq true (dt_init DEFAULT_MAX_TABLE_SIZE) [[hd "x-fo1" "ba1"]; [hd "x-fo2" "ba2"]; [hd "x-fo3" "ba3"]; [hd "x-fo4" "ba4"]] in Ret bs.
Example evicts :
  (let! T := huffman_tree in let! bs := four in
   let! t := fold_left (fun t b => let! t := t in let! (_, t) := hpack_decode T t b in Ret t) bs (Ret (dt_init 120)) in
   Ret (map h_name (dt_table t))) = Ret [str "x-fo4"; str "x-fo3"; str "x-fo2"] /\
  (let! bs := four in let! (_, s) := decoded 120 (firstn 1 bs) in Ret s) = Ret (1, 40) /\
  (let! bs := four in let! (_, s) := decoded 120 (firstn 2 bs) in Ret s) = Ret (2, 80) /\
  (let! bs := four in let! (_, s) := decoded 120 (firstn 3 bs) in Ret s) = Ret (3, 120) /\
  (let! bs := four in let! (_, s) := decoded 120 (firstn 3 bs ++ [[63; 58]]) in Ret s) = Ret (2, 80) /\
  decoded 120 [[63; 226; 255; 3]] = Ret ([Error ProtocolError], (0, 0)).
Proof. vm_compute. repeat split. Qed.

(** ** test/unit/hpack/test_hb_encoder.cpp *)
Definition encoded (hss : list (list header)) : out (list bytes) :=
  let! (bs, _) := encode_seq true (dt_init DEFAULT_MAX_TABLE_SIZE) hss in Ret bs.
Example encodes :
  encoded [[hd ":method" "GET"; hd ":scheme" "https"; hd ":path" "/"]] = Ret [[130; 135; 132]] /\
  encoded [[hd ":status" "200"]] = Ret [[136]] /\
  encoded [[hd ":authority" "foo"]] = Ret [[65; 3; 102; 111; 111]] /\
  encoded [[hd ":authority" "localhost"]] = Ret [localhost] /\
  encoded [[hd ":authority" "foo"]; [hd ":authority" "foo"]] = Ret [[65; 3; 102; 111; 111]; [190]] /\
  encoded [[hd "foo" "bar"]; [hd "foo" "baz"]] = Ret [[64; 3; 102; 111; 111; 3; 98; 97; 114]; [126; 3; 98; 97; 122]].
Proof. vm_compute. repeat split. Qed.

(** ** test/unit/test_frame_parsing.cpp *)
Example frame_header_test : fh_parse [0; 0; 12; 4; 0; 0; 0; 0; 0] = Ret (FH 12 4 0 0).
Proof. vm_compute. reflexivity. Qed.
Example frame_with_priority :
  let f := Frame (FH 493 1 37 1) (skipn 9 chrome_frame) in
  fh_parse (firstn 9 chrome_frame) = Ret (f_header f) /\ lenZ (f_payload f) = 493 /\ has_flag f 32 = true /\ has_flag f 8 = false /\
  (let! b := headers_block f in let! (rs, _) := fresh [b] in Ret (map headers_in rs)) = Ret [Some 20].
Proof. vm_compute. repeat split. Qed.

(** ** test/unit/test_router.cpp, test_router_middleware.cpp *)
Section Routes.
  Variable files : unit -> os.
  (** Used in the tests of test/unit/test_router.cpp, test_router_middleware.cpp. *)
  Definition answers (code : Z) : handler unit := fun _ w => (w, Some (Response code [] [])).
  (** Used in the tests of test/unit/test_router.cpp, test_router_middleware.cpp. *)
  Definition instead (code new : Z) : middleware unit := fun next w =>
    (w, Some (fun rq w => match next rq w with
                          | (w, Some r) => (w, Some (if rs_status r =? code then Response new (rs_headers r) (rs_body r) else r))
                          | x => x
                          end)).
  (** Used in the tests of test/unit/test_router.cpp, test_router_middleware.cpp. *)
  Definition asked (xs : list (registration unit)) (path method : string) : option response :=
    match get_handler unit files (configure unit xs) (str path) (str method) tt with
    | (w, Some h) => snd (h (Request [] [] []) w)
    | _ => None
    end.
  (** Used in the tests of test/unit/test_router.cpp, test_router_middleware.cpp. *)
  Definition status_of (xs : list (registration unit)) (path method : string) : option Z := option_map rs_status (asked xs path method).
End Routes.
(** Used in the tests of test/unit/test_router.cpp, test_router_middleware.cpp. *)
Definition no_files : unit -> os := fun _ => OS (fun _ => None) [] 0.
(** Used in the tests of test/unit/test_router.cpp, test_router_middleware.cpp. *)
Definition route_to (path method : string) (code : Z) : registration unit := AddRoute (str path) (str method) (answers code).
Example router_tests :
  status_of no_files [] "/" "GET" = Some 404 /\
  status_of no_files [route_to "/foo" "GET" 200] "/" "GET" = Some 404 /\
  status_of no_files [route_to "/foo" "GET" 200; route_to "/bar" "POST" 201; route_to "/bar" "GET" 202; route_to "/baz" "GET" 203] "/bar" "GET" = Some 202 /\
  status_of no_files [route_to "/foo" "GET" 404; AddMiddleware (instead 404 202)] "/bar" "GET" = Some 202 /\
  status_of no_files [AddMiddleware (instead 404 201)] "/bar" "GET" = Some 201.
Proof. vm_compute. repeat split. Qed.

(** ** test/unit/test_file_reader.cpp *)
Fixpoint places_eqb (a b : location) : bool :=
  match a, b with [], [] => true | x :: a', y :: b' => bytes_eqb x y && places_eqb a' b' | _, _ => false end.
(** Used in the tests of test/unit/test_file_reader.cpp. *)
Definition files_at (entries : list (list string * entry)) : filesystem :=
  fun l => match find (fun x => places_eqb (map str (fst x)) l) entries with Some x => Some (snd x) | None => None end.
(** Used in the tests of test/unit/test_file_reader.cpp. *)
Definition tmp : os := OS (files_at [([], EDir true); (["tmp"], EDir true); (["tmp"; "base"], EDir true); (["tmp"; "base"; "sub"], EDir true)]%string) [] 40.
Example sanitize_tests :
  sanitize_path tmp (str "/tmp/base") (str "sub/file.txt") = Some (str "/tmp/base/sub/file.txt") /\
  sanitize_path tmp (str "/tmp/base") (str "sub/../..//secret.txt") = None /\
  sanitize_path tmp (str "/tmp/base") (str "/etc/passwd") = None /\
  sanitize_path tmp (str "/tmp/no_such_base_dir_for_ion_tests") (str "index.html") = None.
Proof. vm_compute. repeat split. Qed.

(** ** test/integration/test_static.cpp *)
Definition index : bytes := str "Hello from static file handler".
(** Used in the tests of test/integration/test_static.cpp. *)
Definition checkout : unit -> os := fun _ =>
  OS (files_at [([], EDir true); (["ion"], EDir true); (["ion"; "test"], EDir true); (["ion"; "test"; "system"], EDir true);
                (["ion"; "test"; "system"; "static"], EDir true); (["ion"; "test"; "system"; "static"; "index.html"], EFile true true index);
                (["ion"; "test"; "system"; "secret.txt"], EFile true true (str "secret"))]%string) [str "ion"] 40.
(** Used in the tests of test/integration/test_static.cpp. *)
Definition mapped : list (registration unit) := [AddStatic (Static (str "/static") (str "./test/system/static")); route_to "/static/some-route" "GET" 204].
(** Used in the tests of test/integration/test_static.cpp. *)
Definition html : list header := [hd "content-type" "text/html; charset=utf-8"].
Example static_tests :
  asked checkout mapped "/static/index.html" "GET" = Some (Response 200 html index) /\
  option_map (fun r => (rs_status r, rs_body r)) (asked checkout mapped "/static/index.html" "HEAD") = Some (200, []) /\
  asked checkout mapped "/static" "GET" = Some (Response 200 html index) /\
  asked checkout mapped "/static/" "GET" = Some (Response 200 html index) /\
  status_of checkout mapped "/static/missing.txt" "GET" = Some 404 /\
  status_of checkout mapped "/static/../secret.txt" "GET" = Some 403 /\
  status_of checkout mapped "/static/index.html?v=1" "GET" = Some 200 /\
  status_of checkout mapped "/static/some-route" "GET" = Some 204 /\
  status_of checkout (AddMiddleware (instead 404 202) :: mapped) "/static/missing.txt" "GET" = Some 202.
Proof. vm_compute. repeat split. Qed.

(** ** test/integration/test_server.cpp: the configuration *)
Definition pems : os := OS (files_at [([], EDir true); (["cert.pem"], EFile true true []); (["key.pem"], EFile true true [])]%string) [] 40.
Example configuration_tests :
  new_server pems true (Config None None false) = Throw /\
  new_server pems true (Config (Some (str "cert.pem")) (Some (str "key.pem")) false) = Ret tt /\
  new_server pems true (Config None None true) = Ret tt.
Proof. vm_compute. repeat split. Qed.
