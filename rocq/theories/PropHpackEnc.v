(** Properties C18-C21: the response header encoder.  Statements only; proofs are in
    HpackEncProofs.v.  [encode_seq cs (dt_init DEFAULT_MAX_TABLE_SIZE) hss] encodes the
    header lists of a connection's responses in order; [cs]: is plain char signed?
    [rfc_blocks (rfc_profile limit) ([], limit) blocks hss st] says that a decoder
    following RFC 7541 with that table limit reads [blocks] as [hss]. *)
From Verif Require Import Base BaseLemmas SpecTable SpecHpack SpecHpackEnc DynTable HpackEnc HpackEncProofs HpackEncLost
  SpecHpackKept HpackEncKept HpackEncOnce.

(** What such a decoder reads is unique. *)
Theorem C18_reading_unique : forall limit st blocks hss st1 hss' st1',
  rfc_blocks (rfc_profile limit) st blocks hss st1 ->
  rfc_blocks (rfc_profile limit) st blocks hss' st1' ->
  hss' = hss /\ st1' = st1.
Proof. exact rfc_reading_unique. Qed.
Print Assumptions C18_reading_unique.

(** C18 is false.  Two responses: "a: 1", "b: 2", then "a: 3".  No decoder can read
    the second header block. *)
Theorem C18_new_value_for_older_name_refuted : forall cs, exists blocks t,
  encode_seq cs (dt_init DEFAULT_MAX_TABLE_SIZE)
    [[Hdr (str "a") (str "1"); Hdr (str "b") (str "2")]; [Hdr (str "a") (str "3")]] = Ret (blocks, t) /\
  forall limit hss st, ~ rfc_blocks (rfc_profile limit) ([], 65536) blocks hss st.
Proof. exact dynamic_name_lost. Qed.
Print Assumptions C18_new_value_for_older_name_refuted.

(** After 68 distinct fields ("a0: 1", "a1: 1", ...) the oldest one is silently
    received as ":authority: ". *)
Theorem C18_far_field_refuted : forall cs, exists blocks t st,
  encode_seq cs (dt_init DEFAULT_MAX_TABLE_SIZE) [many_fields; [short_field 0]] = Ret (blocks, t) /\
  rfc_blocks (rfc_profile 65536) ([], 65536) blocks [many_fields; [Hdr (str ":authority") []]] st.
Proof. exact far_field_replaced. Qed.
Print Assumptions C18_far_field_refuted.

(** What holds: responses survive as long as every field is reachable when it is sent
    (see SpecHpackEnc.v) and strings are encodable. *)
Theorem C18_headers_survive_partial : forall cs hss,
  Forall (Forall (header_ok cs)) hss -> all_reachable 65536 [] (concat hss) ->
  exists blocks t, encode_seq cs (dt_init DEFAULT_MAX_TABLE_SIZE) hss = Ret (blocks, t) /\
    rfc_blocks (rfc_profile 65536) ([], 65536) blocks hss (dt_table t, 65536).
Proof. exact responses_survive. Qed.
Print Assumptions C18_headers_survive_partial.

(** What certainly goes wrong.  If every field before [h] was reachable and [h] is lost in
    the sense of SpecHpackEnc.v, then no decoder, whatever the size of its table, receives
    it, whatever follows on the connection: what it reads of that block, if it can read
    it at all, has something else, or nothing, in the place of [h].  Neither reachable
    nor lost are fields whose name is known from the entry with index 63 only and whose
    value is empty, or whose name other entries have too; indices that are multiples of
    64 with a value equal to the name; and other indices that are 63 modulo 64 and less
    than 128 modulo 256.  For these the octets sent after them decide. *)
Theorem C18_unreachable_lost : forall cs m hss before h after later blocks t limit hss' st,
  m <= 65536 -> Forall (Forall (header_ok cs)) (hss ++ (before ++ h :: after) :: later) ->
  all_reachable 65536 [] (concat hss ++ before) ->
  lost_field (fold_left (after_field 65536) (concat hss ++ before) []) h ->
  encode_seq cs (dt_init DEFAULT_MAX_TABLE_SIZE) (hss ++ (before ++ h :: after) :: later) = Ret (blocks, t) ->
  rfc_blocks (rfc_profile limit) ([], m) blocks hss' st ->
  exists got later', hss' = hss ++ (before ++ got) :: later' /\ (forall rest, got <> h :: rest).
Proof. exact lost_response. Qed.
Print Assumptions C18_unreachable_lost.

(** Both kinds: "a: 3" after "a: 1" and "b: 2" in the same block, and the first of 68
    fields sent again. *)
Example C18_lost_case :
  (all_reachable 65536 [] ([] ++ two_fields) /\
   lost_field (fold_left (after_field 65536) ([] ++ two_fields) []) (Hdr (str "a") (str "3"))) /\
  (all_reachable 65536 [] (many_fields ++ []) /\
   lost_field (fold_left (after_field 65536) (many_fields ++ []) []) (short_field 0)).
Proof.
  assert (NS : forall x, existsb (header_eqb x) rfc_static = false -> ~ In x rfc_static).
  { intros x E Hin. assert (existsb (header_eqb x) rfc_static = true); [|congruence].
    apply existsb_exists. exists x. split; [exact Hin|now apply header_eqb_eq]. }
  split; split; try (apply all_reachableb_ok; vm_compute; reflexivity).
  - split; [apply NS; vm_compute; reflexivity|]. right.
    replace (fold_left _ _ _) with [Hdr (str "b") (str "2"); Hdr (str "a") (str "1")] by (vm_compute; reflexivity).
    split; [intros [F|[F|[]]]; discriminate|]. split.
    { intros (x & Hx & En). assert (N : existsb (fun s => bytes_eqb (h_name s) (str "a")) rfc_static = true);
        [|now vm_compute in N]. apply existsb_exists. exists x. split; [exact Hx|now apply bytes_eqb_eq]. }
    exists 1%nat. split.
    { split; [exists (Hdr (str "a") (str "1")); split; reflexivity|].
      intros [|j] x Hj E; [injection E as <-; discriminate|lia]. }
    split; [lia|]. cbv zeta. right; right; right. split; [reflexivity|]. split; [discriminate|].
    intros [|[|j]] x E Ex; [injection E as <-; discriminate|reflexivity|].
    destruct j; discriminate.
  - split; [apply NS; vm_compute; reflexivity|]. left. exists 67%nat.
    replace (fold_left _ _ _) with (rev many_fields) by (vm_compute; reflexivity).
    split; [|lia]. split; [exists (short_field 0); split; vm_compute; reflexivity|].
    intros j x Hj E <-.
    assert (N : forallb (fun i => match nth_error (rev many_fields) i with
      Some y => negb (header_eqb (short_field 0) y) | None => false end) (seq 0 67) = true) by (vm_compute; reflexivity).
    rewrite forallb_forall in N. specialize (N j). rewrite in_seq, E in N. specialize (N ltac:(lia)).
    now vm_compute in N.
Qed.

(** A new value for a name outside the static table, while that name's entry is the
    newest; strings raw and Huffman-coded; references to both tables. *)
Definition ex_responses : list (list header) :=
  [[Hdr (str ":status") (str "200"); Hdr (str "content-type") (str "text/html"); Hdr (str "x-id") (str "first")];
   [Hdr (str ":status") (str "200"); Hdr (str "x-id") (str "second"); Hdr (str "content-type") (str "text/html")];
   [Hdr (str ":status") (str "404"); Hdr (str "x-id") (str "second")]].
Example C18_example :
  Forall (Forall (header_ok true)) ex_responses /\ all_reachable 65536 [] (concat ex_responses).
Proof.
  split; [|apply all_reachableb_ok; vm_compute; reflexivity].
  repeat (constructor; [apply headers_okb_ok; vm_compute; reflexivity|]). constructor.
Qed.

(** C19: [D] is the set of fields the responses draw from. *)
Theorem C19_few_fields_survive : forall cs D hss,
  (length D <= 65)%nat ->
  (forall x y, In x D -> In y D -> h_name x = h_name y -> ~ static_name (h_name x) -> x = y) ->
  Forall (header_ok cs) D -> Forall (Forall (fun h => In h D)) hss ->
  exists blocks t, encode_seq cs (dt_init DEFAULT_MAX_TABLE_SIZE) hss = Ret (blocks, t) /\
    rfc_blocks (rfc_profile 65536) ([], 65536) blocks hss (dt_table t, 65536).
Proof. exact few_fields_survive. Qed.
Print Assumptions C19_few_fields_survive.

(** The bound is tight to within three fields: 68 are too many (C18_far_field_refuted).
    The fields the server itself sends for its static files meet the hypotheses: *)
Definition ex_fields : list header :=
  [Hdr (str ":status") (str "200"); Hdr (str ":status") (str "404"); Hdr (str ":status") (str "403");
   Hdr (str "content-type") (str "text/html"); Hdr (str "content-type") (str "image/png");
   Hdr (str "content-length") (str "1234"); Hdr (str "server") (str "ion"); Hdr (str "x-powered-by") (str "ion")].
Example C19_example :
  (length ex_fields <= 65)%nat /\
  (forall x y, In x ex_fields -> In y ex_fields -> h_name x = h_name y -> ~ static_name (h_name x) -> x = y) /\
  Forall (header_ok true) ex_fields.
Proof.
  split; [cbn; lia|]. split; [|apply headers_okb_ok; vm_compute; reflexivity].
  apply one_valueb_ok. vm_compute. reflexivity.
Qed.

(** C20 is false: one "set-cookie" field of 4100 octets sent twice on a connection is
    lost for a client that left the table at the default size of 4096 octets. *)
Theorem C20_default_client_refuted : forall cs, exists blocks t,
  encode_seq cs (dt_init DEFAULT_MAX_TABLE_SIZE)
    [[Hdr (str "set-cookie") (repeat 97 4100)]; [Hdr (str "set-cookie") (repeat 97 4100)]] = Ret (blocks, t) /\
  forall limit hss st, ~ rfc_blocks (rfc_profile limit) ([], 4096) blocks hss st.
Proof. exact default_client_lost. Qed.
Print Assumptions C20_default_client_refuted.

(** What holds: the default client reads every response if, in addition to C19, the
    distinct fields fit its table together. *)
Theorem C20_default_client_partial : forall cs D hss,
  (length D <= 65)%nat ->
  (forall x y, In x D -> In y D -> h_name x = h_name y -> ~ static_name (h_name x) -> x = y) ->
  NoDup D -> table_size D <= 4096 ->
  Forall (header_ok cs) D -> Forall (Forall (fun h => In h D)) hss ->
  exists blocks t, encode_seq cs (dt_init DEFAULT_MAX_TABLE_SIZE) hss = Ret (blocks, t) /\
    rfc_blocks (rfc_profile 4096) ([], 4096) blocks hss (dt_table t, 4096).
Proof. exact few_fields_survive_default. Qed.
Print Assumptions C20_default_client_partial.

Example C20_example : NoDup ex_fields /\ table_size ex_fields <= 4096.
Proof. split; [apply NoDupb_ok; vm_compute; reflexivity|vm_compute; discriminate]. Qed.

(** Exactly: let every field be reachable for a client with the encoder's table.  A client
    whose table holds [m] octets reads the responses as they were sent if every field is
    kept for it in the sense of SpecHpackKept.v, and ends with the newest entries of the
    encoder's table that fit.  Otherwise it cannot read the blocks at all: it has to give
    up the connection.  The default is [m = 4096]. *)
Theorem C20_exactly : forall cs m hss,
  m <= 65536 -> Forall (Forall (header_ok cs)) hss -> all_reachable 65536 [] (concat hss) ->
  exists blocks t, encode_seq cs (dt_init DEFAULT_MAX_TABLE_SIZE) hss = Ret (blocks, t) /\
    (all_kept m 65536 [] (concat hss) -> forall limit,
       rfc_blocks (rfc_profile limit) ([], m) blocks hss (fit m (dt_table t), m)) /\
    (~ all_kept m 65536 [] (concat hss) -> forall limit hss' st,
       ~ rfc_blocks (rfc_profile limit) ([], m) blocks hss' st).
Proof. exact smaller_client. Qed.
Print Assumptions C20_exactly.

(** Five cookies of 1000 octets, of which the client has the last three when the fifth has
    been sent: it reads the fifth, the fourth and the third again, but not the second. *)
Definition ex_cookie (c : Z) : header := Hdr (str "set-cookie") (repeat c 1000).
Definition ex_cookies : list header := map ex_cookie [97; 98; 99; 100; 101].
Example C20_exactly_case :
  Forall (Forall (header_ok true)) [ex_cookies; [ex_cookie 101; ex_cookie 100; ex_cookie 99; ex_cookie 98]] /\
  all_reachable 65536 [] (ex_cookies ++ [ex_cookie 101; ex_cookie 100; ex_cookie 99; ex_cookie 98]) /\
  all_kept 4096 65536 [] (ex_cookies ++ [ex_cookie 101; ex_cookie 100; ex_cookie 99]) /\
  ~ all_kept 4096 65536 [] (ex_cookies ++ [ex_cookie 101; ex_cookie 100; ex_cookie 99; ex_cookie 98]).
Proof.
  split; [|split; [|split]].
  - repeat (constructor; [apply headers_okb_ok; vm_compute; reflexivity|]). constructor.
  - apply all_reachableb_ok. vm_compute. reflexivity.
  - apply all_keptb_iff. vm_compute. reflexivity.
  - rewrite <- all_keptb_iff. vm_compute. discriminate.
Qed.

(** If names outside the static table have one value each, as in most servers, this can be
    said without exceptions: a client whose table holds [m] octets reads the responses as they
    were sent if and only if every field that is sent while the server's table has it is
    among the newest 65 entries there and among those that fit into [m] octets. *)
Theorem C20_one_value_exactly : forall cs hss,
  Forall (Forall (header_ok cs)) hss ->
  (forall x y, In x (concat hss) -> In y (concat hss) -> h_name x = h_name y -> ~ static_name (h_name x) -> x = y) ->
  exists blocks t, encode_seq cs (dt_init DEFAULT_MAX_TABLE_SIZE) hss = Ret (blocks, t) /\
    forall m limit, m <= 65536 ->
      (exists st, rfc_blocks (rfc_profile limit) ([], m) blocks hss st) <-> all_at_hand m 65536 (concat hss).
Proof.
  intros cs hss Hok H1. destruct (encodable_defined cs hss Hok) as (blocks & t & E). exists blocks, t. split; [exact E|].
  intros m limit Hm. exact (read_exactly_seq cs (concat hss) m hss Hm H1 (incl_refl _) Hok blocks t limit E).
Qed.
Print Assumptions C20_one_value_exactly.

(** The cookies again, and 66 fields of which a client with the encoder's table size reads the
    second again, but not the first. *)
Definition ex_lengths : list header := map (fun n => Hdr (str "content-length") (to_string (Z.of_nat n))) (seq 1 66).
Lemma hand_case m hs : all_reachableb 65536 [] hs && all_keptb m 65536 [] hs && one_valueb hs = true -> all_at_hand m 65536 hs.
Proof.
  intros H. apply andb_prop in H as [H H3]. apply andb_prop in H as [H1 H2].
  refine (proj1 (all_hand hs (one_valueb_ok _ H3) m 65536 hs [] _ (incl_refl _)) _).
  - split; [constructor|]. split; intros x [].
  - split; [now apply all_reachableb_ok|now apply all_keptb_iff].
Qed.
Example C20_one_value_case :
  Forall (Forall (header_ok true)) [ex_cookies; [ex_cookie 101; ex_cookie 100; ex_cookie 99; ex_cookie 98]] /\
  all_at_hand 4096 65536 (ex_cookies ++ [ex_cookie 101; ex_cookie 100; ex_cookie 99]) /\
  ~ all_at_hand 4096 65536 (ex_cookies ++ [ex_cookie 98]) /\
  Forall (header_ok true) ex_lengths /\
  all_at_hand 65536 65536 (ex_lengths ++ [Hdr (str "content-length") (str "2")]) /\
  ~ all_at_hand 65536 65536 (ex_lengths ++ [Hdr (str "content-length") (str "1")]).
Proof.
  assert (G : forall n l (h : header), existsb (header_eqb h) (firstn n l) = false -> ~ In h (firstn n l)).
  { intros n l h E Hin. assert (existsb (header_eqb h) (firstn n l) = true); [|congruence]. apply existsb_exists. exists h. split; [exact Hin|now apply header_eqb_eq]. }
  assert (G2 : forall m l (h : header), existsb (header_eqb h) (fit m l) = false -> ~ In h (fit m l)).
  { intros m l h E Hin. assert (existsb (header_eqb h) (fit m l) = true); [|congruence]. apply existsb_exists. exists h. split; [exact Hin|now apply header_eqb_eq]. }
  assert (G3 : forall l (h : header), existsb (header_eqb h) l = true -> In h l).
  { intros l h E. apply existsb_exists in E as (x & Hx & E). apply header_eqb_eq in E. now subst x. }
  split; [apply C20_exactly_case|]. split; [apply hand_case; vm_compute; reflexivity|]. split.
  - intros A. destruct (A ex_cookies (ex_cookie 98) [] eq_refl) as [_ F]; [apply G3; vm_compute; reflexivity|]. refine (G2 _ _ _ _ F). vm_compute. reflexivity.
  - split; [apply headers_okb_ok; vm_compute; reflexivity|]. split; [apply hand_case; vm_compute; reflexivity|].
    intros A. destruct (A ex_lengths (Hdr (str "content-length") (str "1")) [] eq_refl) as [F _]; [apply G3; vm_compute; reflexivity|]. refine (G _ _ _ _ F). vm_compute. reflexivity.
Qed.

(** C21 is false where plain char is signed: every value longer than three octets with
    an octet above 127 reads outside the code table. *)
Theorem C21_high_octets_refuted : forall s,
  all_bytes s -> Exists (fun c => 128 <= c) s -> 3 < lenZ s ->
  hpack_encode true (dt_init DEFAULT_MAX_TABLE_SIZE) [Hdr (str "server") s] = Undef.
Proof. exact high_octet_undefined. Qed.
Print Assumptions C21_high_octets_refuted.

Example C21_refuted_example : all_bytes [195; 169; 116; 195; 169] /\
  Exists (fun c => 128 <= c) [195; 169; 116; 195; 169] /\ 3 < lenZ [195; 169; 116; 195; 169].
Proof. split; [now apply all_bytesb_ok|]. split; [constructor; lia|reflexivity]. Qed.

(** What holds: where char is unsigned, or the octets are ASCII or at most three, the
    encoder is defined on every history of responses. *)
Theorem C21_encodable_partial : forall cs hss,
  Forall (Forall (header_ok cs)) hss ->
  exists blocks t, encode_seq cs (dt_init DEFAULT_MAX_TABLE_SIZE) hss = Ret (blocks, t).
Proof. exact encodable_defined. Qed.
Print Assumptions C21_encodable_partial.

Theorem C21_unsigned_char_any_octets : forall s,
  all_bytes s -> lenZ s < 2 ^ 30 -> string_ok false s.
Proof. exact string_ok_unsigned. Qed.
Print Assumptions C21_unsigned_char_any_octets.

Example C21_example : header_ok false (Hdr (str "server") [195; 169; 116; 195; 169]).
Proof. assert (H : Forall (header_ok false) [Hdr (str "server") [195; 169; 116; 195; 169]])
    by (apply headers_okb_ok; vm_compute; reflexivity). now inversion H. Qed.
