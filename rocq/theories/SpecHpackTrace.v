(** What messages at level trace tell about a header block: the representations of RFC 7541,
    each with the messages for it.  Independent of the model. *)
From Verif Require Import Base SpecInt SpecTable SpecHpack AccessLog Messages.

(** The first message for a representation: its kind and its first octet. *)
Definition HEX_pair (n : Z) : bytes :=
  [nth (Z.to_nat (n / 16)) (str "0123456789ABCDEF") 0; nth (Z.to_nat (n mod 16)) (str "0123456789ABCDEF") 0].
Definition kind_of (first : Z) : bytes :=
  if first <? 16 then str "LiteralNoIndex" else if first <? 32 then str "LiteralNeverIndex" else if first <? 64 then str "SizeUpdate"
  else if first <? 128 then str "LiteralIncremental" else str "Indexed".
Definition representation (first : Z) : message := Msg LTrace (str "header type: " ++ kind_of first ++ str ", byte: 0x" ++ HEX_pair first).

(** Where the entry with an index is: each table counted from 0. *)
Definition place (i : Z) : bytes :=
  if i <=? 61 then str "static table (idx: " ++ to_string (i - 1) else str "dynamic table (idx: " ++ to_string (i - 62).
Definition entry_line (i : Z) (h : header) : message :=
  Msg LTrace (str "read indexed header from " ++ place i ++ str ", name: " ++ h_name h ++ str ", val: " ++ h_value h ++ str ")").
Definition name_line (i : Z) (n : bytes) : message := Msg LTrace (str "read indexed header name from " ++ place i ++ str ", name: " ++ n ++ str ")").
Definition literal_line (i : Z) (new : bytes) : message := Msg LTrace (str "decoding literal field with index: " ++ to_string i ++ str ", new name: " ++ new).
Definition field_line (h : header) : message := Msg LTrace (str "decoded header: name: " ++ h_name h ++ str ", value: " ++ h_value h).
(** The message about an entry that is put into a table of a given capacity. *)
Definition stored_line (max : Z) (h : header) : message :=
  Msg LDebug
    (if max <? entry_size h then str "dynamic table: entry too big (sz: " ++ to_string (entry_size h) ++ str ", max: " ++ to_string max ++ str "), table wiped"
     else str "dynamic table: current sz: " ++ to_string (entry_size h) ++ str ", max: " ++ to_string max).

Inductive told_name (N : Z) (dyn : list header) : bytes -> bytes -> list message -> Prop :=
| told_indexed_name : forall ib i h, p_rfc_int server_profile N ib i -> i <> 0 -> table_entry dyn i = Some h ->
    told_name N dyn ib (h_name h) [literal_line i (str "false"); name_line i (h_name h)]
| told_new_name : forall ib sb s, p_rfc_int server_profile N ib 0 -> rfc_string server_profile sb s ->
    told_name N dyn (ib ++ sb) s [literal_line 0 (str "true")].
Inductive told_repr : tstate -> bytes -> list header -> tstate -> list message -> Prop :=
| told_indexed : forall dyn max first rest i h,
    128 <= first < 256 -> p_rfc_int server_profile 7 (first :: rest) i -> table_entry dyn i = Some h ->
    told_repr (dyn, max) (first :: rest) [h] (dyn, max) [representation first; entry_line i h]
| told_incremental : forall dyn max first rest n vb v ms,
    64 <= first < 128 -> told_name 6 dyn (first :: rest) n ms -> rfc_string server_profile vb v ->
    told_repr (dyn, max) ((first :: rest) ++ vb) [Hdr n v] (fit max (Hdr n v :: dyn), max)
      (representation first :: ms ++ [field_line (Hdr n v); stored_line max (Hdr n v)])
| told_literal : forall dyn max first rest n vb v ms,
    0 <= first < 32 -> told_name 4 dyn (first :: rest) n ms -> rfc_string server_profile vb v ->
    told_repr (dyn, max) ((first :: rest) ++ vb) [Hdr n v] (dyn, max) (representation first :: ms ++ [field_line (Hdr n v)])
| told_size_update : forall dyn max first rest n,
    32 <= first < 64 -> p_rfc_int server_profile 5 (first :: rest) n -> n <= 65536 ->
    told_repr (dyn, max) (first :: rest) [] (fit n dyn, n) [representation first; Msg LTrace (str "dynamic table size updated to: " ++ to_string n)].
Inductive told_block : tstate -> bytes -> list header -> tstate -> list message -> Prop :=
| told_nil : forall st, told_block st [] [] st []
| told_cons : forall st bs hs st1 ms bs2 hs2 st2 ms2,
    told_repr st bs hs st1 ms -> told_block st1 bs2 hs2 st2 ms2 ->
    told_block st (bs ++ bs2) (hs ++ hs2) st2 (ms ++ ms2).

(** The messages that name a whole field. *)
Definition starts (p t : bytes) : bool := bytes_eqb p (firstn (length p) t).
Definition names_field (m : message) : bool := starts (str "read indexed header from ") (m_text m) || starts (str "decoded header: ") (m_text m).
(** The messages at level debug and above. *)
Definition at_debug (ms : list message) : list message := filter (fun m => match m_level m with LTrace => false | _ => true end) ms.
