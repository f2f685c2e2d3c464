(** RFC 7541: header blocks, as a relation between a table state, an octet string,
    the header list it denotes and the resulting table state.  Independent of the
    model. *)
From Verif Require Import Base SpecInt SpecHuffman SpecTable.

(** Appendix A. *)
Definition rfc_static : list header := [
  Hdr (str ":authority") (str "");
  Hdr (str ":method") (str "GET");
  Hdr (str ":method") (str "POST");
  Hdr (str ":path") (str "/");
  Hdr (str ":path") (str "/index.html");
  Hdr (str ":scheme") (str "http");
  Hdr (str ":scheme") (str "https");
  Hdr (str ":status") (str "200");
  Hdr (str ":status") (str "204");
  Hdr (str ":status") (str "206");
  Hdr (str ":status") (str "304");
  Hdr (str ":status") (str "400");
  Hdr (str ":status") (str "404");
  Hdr (str ":status") (str "500");
  Hdr (str "accept-charset") (str "");
  Hdr (str "accept-encoding") (str "gzip, deflate");
  Hdr (str "accept-language") (str "");
  Hdr (str "accept-ranges") (str "");
  Hdr (str "accept") (str "");
  Hdr (str "access-control-allow-origin") (str "");
  Hdr (str "age") (str "");
  Hdr (str "allow") (str "");
  Hdr (str "authorization") (str "");
  Hdr (str "cache-control") (str "");
  Hdr (str "content-disposition") (str "");
  Hdr (str "content-encoding") (str "");
  Hdr (str "content-language") (str "");
  Hdr (str "content-length") (str "");
  Hdr (str "content-location") (str "");
  Hdr (str "content-range") (str "");
  Hdr (str "content-type") (str "");
  Hdr (str "cookie") (str "");
  Hdr (str "date") (str "");
  Hdr (str "etag") (str "");
  Hdr (str "expect") (str "");
  Hdr (str "expires") (str "");
  Hdr (str "from") (str "");
  Hdr (str "host") (str "");
  Hdr (str "if-match") (str "");
  Hdr (str "if-modified-since") (str "");
  Hdr (str "if-none-match") (str "");
  Hdr (str "if-range") (str "");
  Hdr (str "if-unmodified-since") (str "");
  Hdr (str "last-modified") (str "");
  Hdr (str "link") (str "");
  Hdr (str "location") (str "");
  Hdr (str "max-forwards") (str "");
  Hdr (str "proxy-authenticate") (str "");
  Hdr (str "proxy-authorization") (str "");
  Hdr (str "range") (str "");
  Hdr (str "referer") (str "");
  Hdr (str "refresh") (str "");
  Hdr (str "retry-after") (str "");
  Hdr (str "server") (str "");
  Hdr (str "set-cookie") (str "");
  Hdr (str "strict-transport-security") (str "");
  Hdr (str "transfer-encoding") (str "");
  Hdr (str "user-agent") (str "");
  Hdr (str "vary") (str "");
  Hdr (str "via") (str "");
  Hdr (str "www-authenticate") (str "")
].

(** 2.3.3: one address space, static entries first, starting at 1. *)
Definition table_entry (dyn : list header) (i : Z) : option header :=
  if 1 <=? i then nth_error (rfc_static ++ dyn) (Z.to_nat (i - 1)) else None.

(** The RFC lets an implementation limit integers, strings and the table size; a
    profile names such limits and the notion of Huffman validity. *)
Record profile := Profile {
  p_huff : bytes -> bytes -> Prop;       (* payload, string *)
  p_string : Z -> Prop;                  (* acceptable string lengths *)
  p_int : bytes -> Z -> Prop;            (* acceptable integer representations *)
  p_limit : Z                            (* largest table size update *)
}.

(** The unrestricted profile of RFC 7541 for a table limit. *)
Definition rfc_profile (limit : Z) : profile :=
  Profile huff_strict (fun _ => True) (fun _ _ => True) limit.

Section Block.
  Variable P : profile.

  Definition p_rfc_int (N : Z) (bs : bytes) (v : Z) : Prop := rfc_int N bs v /\ p_int P bs v.

  (** 5.2: length with a 7-bit prefix, flag bit H, octets. *)
  Inductive rfc_string : bytes -> bytes -> Prop :=
  | string_raw : forall b ib s,
      p_rfc_int 7 (b :: ib) (lenZ s) -> b < 128 -> all_bytes s -> p_string P (lenZ s) ->
      rfc_string ((b :: ib) ++ s) s
  | string_huffman : forall b ib p s,
      p_rfc_int 7 (b :: ib) (lenZ p) -> 128 <= b -> all_bytes p -> all_bytes s ->
      p_huff P p s -> p_string P (lenZ s) ->
      rfc_string ((b :: ib) ++ p) s.

  (** Table state: entries (newest first) and current maximum size. *)
  Definition tstate : Type := list header * Z.

  (** The name of a literal field: an index with an N-bit prefix, or a string. *)
  Inductive rfc_name (N : Z) (dyn : list header) : bytes -> bytes -> Prop :=
  | name_indexed : forall ib i h,
      p_rfc_int N ib i -> i <> 0 -> table_entry dyn i = Some h -> rfc_name N dyn ib (h_name h)
  | name_literal : forall ib sb s,
      p_rfc_int N ib 0 -> rfc_string sb s -> rfc_name N dyn (ib ++ sb) s.

  (** One representation (section 6). [first] is its first octet. *)
  Inductive rfc_repr : tstate -> bytes -> list header -> tstate -> Prop :=
  | repr_indexed : forall dyn max first rest i h,          (* 6.1: 1xxxxxxx *)
      128 <= first < 256 -> p_rfc_int 7 (first :: rest) i -> table_entry dyn i = Some h ->
      rfc_repr (dyn, max) (first :: rest) [h] (dyn, max)
  | repr_incremental : forall dyn max first rest n vb v,   (* 6.2.1: 01xxxxxx *)
      64 <= first < 128 -> rfc_name 6 dyn (first :: rest) n -> rfc_string vb v ->
      rfc_repr (dyn, max) ((first :: rest) ++ vb) [Hdr n v] (fit max (Hdr n v :: dyn), max)
  | repr_literal : forall dyn max first rest n vb v,       (* 6.2.2, 6.2.3: 000xxxxx *)
      0 <= first < 32 -> rfc_name 4 dyn (first :: rest) n -> rfc_string vb v ->
      rfc_repr (dyn, max) ((first :: rest) ++ vb) [Hdr n v] (dyn, max)
  | repr_size_update : forall dyn max first rest n,        (* 6.3: 001xxxxx *)
      32 <= first < 64 -> p_rfc_int 5 (first :: rest) n -> n <= p_limit P ->
      rfc_repr (dyn, max) (first :: rest) [] (fit n dyn, n).

  (** A header block is a sequence of representations.  (The RFC wants size updates
      only at the start of a block; this relation allows them anywhere.) *)
  Inductive rfc_block : tstate -> bytes -> list header -> tstate -> Prop :=
  | block_nil : forall st, rfc_block st [] [] st
  | block_cons : forall st bs hs st1 bs2 hs2 st2,
      rfc_repr st bs hs st1 -> rfc_block st1 bs2 hs2 st2 ->
      rfc_block st (bs ++ bs2) (hs ++ hs2) st2.

  (** A sequence of header blocks on one connection. *)
  Inductive rfc_blocks : tstate -> list bytes -> list (list header) -> tstate -> Prop :=
  | blocks_nil : forall st, rfc_blocks st [] [] st
  | blocks_cons : forall st b hs st1 bs hss st2,
      rfc_block st b hs st1 -> rfc_blocks st1 bs hss st2 ->
      rfc_blocks st (b :: bs) (hs :: hss) st2.
End Block.

(** What the server accepts: Huffman leniency of C06, integers below 2^32 in at most
    six octets, strings up to 4096 octets, size updates up to 65536. *)
Definition server_profile : profile :=
  Profile huff_lenient (fun n => n <= 4096) (fun bs v => lenZ bs <= 6 /\ v < 2 ^ 32) 65536.

(** RFC 7541 as written, within the same limits. *)
Definition limited_profile : profile :=
  Profile huff_strict (fun n => n <= 4096) (fun bs v => lenZ bs <= 6 /\ v < 2 ^ 32) 65536.

(** A sending side that keeps less than it may: between blocks it can forget its
    oldest entries and lower its own limit without telling the receiver. *)
Definition shrunk (st' st : tstate) : Prop :=
  (exists e, fst st = fst st' ++ e) /\ snd st' <= snd st.
Inductive frugal_blocks (P : profile) : tstate -> list bytes -> list (list header) -> Prop :=
| frugal_nil : forall st, frugal_blocks P st [] []
| frugal_forget : forall st st' bs hss,
    shrunk st' st -> frugal_blocks P st' bs hss -> frugal_blocks P st bs hss
| frugal_cons : forall st b hs st1 bs hss,
    rfc_block P st b hs st1 -> frugal_blocks P st1 bs hss ->
    frugal_blocks P st (b :: bs) (hs :: hss).

(** Index integers (the prefix sizes of section 6) and blocks whose next index the
    server cannot read: truncated, longer than six octets, or 2^32 and above. *)
Definition int_at (N : Z) (r : bytes) : Prop :=
  exists used rest v, r = used ++ rest /\ p_rfc_int server_profile N used v.
Definition index_prefix (b : Z) : option Z :=
  if 128 <=? b then Some 7 else if 64 <=? b then Some 6 else if 32 <=? b then None else Some 4.
Definition bad_index (r : bytes) : Prop :=
  exists b rest N, r = b :: rest /\ index_prefix b = Some N /\ ~ int_at N r.
