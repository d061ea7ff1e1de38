(** Properties C01-C06, C08, C11, C17, C18: control sequences and numbers.  Theorems
    only; the proofs are in the Facts files. *)
From Verif Require Import Base Utf8 Escape EscapeSpec SeqSpec Decode DecodeSpec Number SeqHeap
  Utf8Facts EscapeFacts DecodeFacts NumberFacts SeqFacts SeqHeapFacts.

(** ** C01 *)
Theorem c01_append_with_round_trip : forall f arg p rest,
  csi_final f = true -> ecma_csi_arg arg ->
  exists enc,
    escape_append_with p (CSI f) arg = p ++ enc
    /\ decode_escape (enc ++ rest) = Ret (mkDec (CSI f) arg (length enc) (enc ++ rest)).
Proof. exact (fun f arg p rest Hf Ha => csi_append_with_round_trip f arg p rest Hf (ecma_csi_arg_ok arg Ha)). Qed.
Print Assumptions c01_append_with_round_trip.

Theorem c01_build_round_trip : forall f ops p rest,
  csi_final f = true -> ecma_csi_arg (all_bytes ops) ->
  exists s nums enc,
    build (CSI f) ops = Ret s /\ seq_append_to p s = Ret (p ++ enc)
    /\ joined (all_ints ops) nums
    /\ decode_escape (enc ++ rest)
       = Ret (mkDec (CSI f) (all_bytes ops ++ nums) (length enc) (enc ++ rest)).
Proof. exact (fun f ops p rest Hf Ha => csi_build_round_trip f ops p rest Hf (ecma_csi_arg_ok _ Ha)). Qed.
Print Assumptions c01_build_round_trip.

Example c01_example :
  csi_final 104 = true /\ ecma_csi_arg (all_bytes [ArgBytes [63]; ArgInts [1; -2; 3; 4]; ArgPoint 7 8])
  /\ decode_escape [27; 91; 63; 49; 59; 50; 104; 65] = Ret (mkDec (CSI 104) [63; 49; 59; 50] 7 [27; 91; 63; 49; 59; 50; 104; 65]).
Proof. split; [reflexivity|]. split; [|reflexivity]. exists [63], []. repeat split. Qed.

(** ** C02: full statement: any payload of valid runes without string terminator.
    Refuted by a payload containing U+FFFD; everything else is proved. *)
Theorem c02_string_refuted : exists payload,
  forallb valid_rune payload = true /\ no_st payload = true /\ ~ In 156 payload
  /\ forall arg, decode_escape ([27; 93] ++ encode_runes payload ++ [27; 92])
                 <> Ret (mkDec 157 arg (length ([27; 93] ++ encode_runes payload ++ [27; 92]))
                           ([27; 93] ++ encode_runes payload ++ [27; 92])).
Proof. exists [65533]. vm_compute. repeat split; try discriminate. intros [H|[]]; discriminate H. Qed.
Print Assumptions c02_string_refuted.

Theorem c02_string_partial : forall id intro payload term rest,
  string_intro id intro -> st_ok term ->
  forallb payload_rune payload = true -> no_st payload = true ->
  decode_escape (intro ++ encode_runes payload ++ term ++ rest)
  = Ret (mkDec id (encode_runes payload) (length (intro ++ encode_runes payload ++ term))
               (intro ++ encode_runes payload ++ term ++ rest)).
Proof. exact decode_escape_string. Qed.
Print Assumptions c02_string_partial.

Example c02_example :
  string_intro 157 [27; 93] /\ st_ok [194; 156] /\ forallb payload_rune [48; 59; 233; 27; 9731] = true
  /\ no_st [48; 59; 233; 27; 9731] = true.
Proof. split; [split; auto|]. split; [right; reflexivity|]. split; reflexivity. Qed.

(** ** C03: full statement: every ESC identifier and every character set selection.
    Character set selection is refuted: it is written designator first; and the
    identifier ESC+'~' is written as nothing by AppendTo. *)
Theorem c03_charset_refuted : exists id b s enc d,
  is_charset_control id = true /\ escape_with id [b] = Ret s
  /\ seq_append_to [] s = Ret enc /\ decode_escape enc = Ret d
  /\ (d_id d, d_arg d) <> (id, [b]).
Proof. exists (ESC 40), 66. do 3 eexists. split; [reflexivity|]. split; [reflexivity|].
  split; [reflexivity|]. split; [vm_compute; reflexivity|]. vm_compute. discriminate. Qed.
Print Assumptions c03_charset_refuted.

Theorem c03_tilde_refuted : escape_append_to [] (ESC 126) = [] /\ escape_append_with [] (ESC 126) [] = [].
Proof. split; reflexivity. Qed.
Print Assumptions c03_tilde_refuted.

(** What holds: every bare ESC function (0x30..0x3F and 0x60..0x7E; 0x40..0x5F are the
    C1 controls). *)
Theorem c03_esc_partial : forall b rest p,
  between 48 126 b = true -> between 64 95 b = false ->
  let enc := [27; b] in
  (b <> 126 -> escape_append_to p (ESC b) = p ++ enc /\ escape_append_with p (ESC b) [] = p ++ enc)
  /\ (exists s, escape_with (ESC b) [] = Ret s /\ seq_append_to p s = Ret (p ++ enc))
  /\ decode_escape (enc ++ rest) = Ret (mkDec (ESC b) [] (length enc) (enc ++ rest)).
Proof. exact esc_round_trip. Qed.
Print Assumptions c03_esc_partial.

(** And how standard ESC sequences with intermediates are read: a single
    intermediate is the identifier (character set designation), several are the
    argument. *)
Theorem c03_decode_partial : forall is b rest,
  forallb (between 32 47) is = true -> between 48 126 b = true ->
  (is = [] -> between 64 95 b = false) ->
  let p := 27 :: is ++ b :: rest in
  decode_escape p =
  Ret match is with
      | [i] => mkDec (ESC i) [b] 3 p
      | _ => mkDec (ESC b) is (2 + length is) p
      end.
Proof. exact decode_escape_esc. Qed.
Print Assumptions c03_decode_partial.

Example c03_example : between 48 126 99 = true /\ between 64 95 99 = false
  /\ decode_escape [27; 40; 66; 33] = Ret (mkDec (ESC 40) [66] 3 [27; 40; 66; 33]).
Proof. repeat split; reflexivity. Qed.

(** ** C04 *)
Theorem c04_decode_total : forall p,
  Forall is_byte p -> p <> [] ->
  exists d, decode_escape p = Ret d
    /\ (c1_rewrite p d
        \/ exists k, conserves p d k
           /\ (d_id d <> 0 -> d_n d = k /\ (0 < k)%nat)
           /\ (d_id d = 0 -> Forall delete_byte (firstn (d_n d) (d_buf d))
                      \/ (d_n d = k /\ (firstn 1 (skipn (k - 1) p) = [24]
                                       \/ firstn 2 (skipn (k - 2) p) = [194; 152]))))
    /\ Forall is_byte (d_buf d).
Proof. exact decode_escape_total. Qed.
Print Assumptions c04_decode_total.

Example c04_example : exists d, decode_escape [27; 127; 40; 127; 66; 88] = Ret d
  /\ d_buf d <> [27; 127; 40; 127; 66; 88] /\ d_n d = 5%nat /\ (d_id d, d_arg d) = (ESC 40, [66]).
Proof. eexists. split; [vm_compute; reflexivity|]. split; [discriminate|]. split; reflexivity. Qed.

(** ** C05: full statement: the decimal text of any integer is read back or reported as
    an error.  Refuted for integers above 2^32-1: no range error is ever reported. *)
Theorem c05_number_refuted : exists z ds v n, decimal z ds /\ decode_number ds = (v, n, None) /\ v <> z.
Proof.
  exists 4294967296, (append_int 4294967296). vm_compute (decode_number _).
  do 2 eexists. split; [apply append_int_decimal|]. split; [reflexivity|discriminate].
Qed.
Print Assumptions c05_number_refuted.

Theorem c05_no_range_error : forall p r n e, decode_number p = (r, n, Some e) -> e = ErrSyntax.
Proof. exact decode_number_no_range. Qed.
Print Assumptions c05_no_range_error.

Theorem c05_number_partial : forall z ds rest,
  decimal z ds -> num_end rest = true -> - (2 ^ 32 - 1) <= z <= 2 ^ 32 - 1 ->
  decode_number (ds ++ rest) = (z, length ds, None)
  /\ decode_number (59 :: ds ++ rest) = (z, S (length ds), None).
Proof. exact decode_number_decimal. Qed.
Print Assumptions c05_number_partial.

(** What an accepted text looks like, whatever it is. *)
Theorem c05_number_shape : forall p r n,
  decode_number p = (r, n, None) ->
  exists f rest, p = field_bytes f ++ rest /\ field_ok f /\ num_end rest = true
    /\ n = length (field_bytes f)
    /\ (dec_value 0 (f_digits f) <= 2 ^ 32 - 1 -> r = field_value f).
Proof. exact decode_number_shape. Qed.
Print Assumptions c05_number_shape.

Example c05_example : decimal (-1024) [45; 49; 48; 50; 52] /\ num_end [59; 49] = true
  /\ decode_number [45; 49; 48; 50; 52; 59; 49] = (-1024, 5%nat, None).
Proof. split; [exact (append_int_decimal (-1024))|]. split; reflexivity. Qed.

(** ** C06 *)
Theorem c06_point_round_trip : forall f x y p rest,
  csi_final f = true -> Z.abs x < 2 ^ 32 -> Z.abs y < 2 ^ 32 ->
  exists s arg enc,
    escape_with_point (CSI f) x y = Ret s /\ seq_append_to p s = Ret (p ++ enc)
    /\ decode_escape (enc ++ rest) = Ret (mkDec (CSI f) arg (length enc) (enc ++ rest))
    /\ decode_point arg = ((x, y), length arg, None).
Proof. exact point_round_trip. Qed.
Print Assumptions c06_point_round_trip.

Example c06_example : csi_final 72 = true /\ decode_point [49; 50; 59; 51; 52] = ((34, 12), 5%nat, None).
Proof. split; reflexivity. Qed.

(** ** C08 (identifiers and sequences; attributes are in Prop_Sgr.v).  The two C0/C1
    identifiers at the end of their range and very large integers break it. *)
Theorem c08_escape_size_refuted :
  escape_size 31 = 1 /\ escape_append_to [] 31 = [] /\ escape_size 159 = 2 /\ escape_append_to [] 159 = [].
Proof. repeat split; reflexivity. Qed.
Print Assumptions c08_escape_size_refuted.

Theorem c08_escape_size_partial : forall p id, id <> 31 -> id <> 159 ->
  Z.of_nat (length (escape_append_to p id)) = Z.of_nat (length p) + escape_size id.
Proof. exact escape_size_exact. Qed.
Print Assumptions c08_escape_size_partial.

Theorem c08_seq_size_refuted : exists ops s e,
  build (CSI 72) ops = Ret s /\ seq_append_to [] s = Ret e /\ seq_size s < Z.of_nat (length e).
Proof. exists [ArgInts [1000000000000]]. do 2 eexists. split; [reflexivity|]. split; [vm_compute; reflexivity|]. vm_compute. reflexivity. Qed.
Print Assumptions c08_seq_size_refuted.

Theorem c08_seq_size_partial : forall id ops s p e,
  build id ops = Ret s -> Forall (fun z => - 10 ^ 8 < z < 10 ^ 9) (all_ints ops) ->
  seq_append_to p s = Ret e ->
  Z.of_nat (length e) <= Z.of_nat (length p) + seq_size s.
Proof. exact build_size. Qed.
Print Assumptions c08_seq_size_partial.

Example c08_example : exists s e, build (CSI 72) [ArgPoint 123456789 5] = Ret s /\ seq_append_to [] s = Ret e
  /\ length e = 14%nat /\ seq_size s = 24.
Proof. do 2 eexists. split; [reflexivity|]. split; [vm_compute; reflexivity|]. split; reflexivity. Qed.

(** ** C11 *)
Theorem c11_mode_round_trip : forall (set private : bool) m p rest,
  0 <= m < 2 ^ 32 ->
  exists s arg enc,
    (if set then mode_set else mode_reset) (with_private private m) = Ret s
    /\ seq_append_to p s = Ret (p ++ enc)
    /\ decode_escape (enc ++ rest)
       = Ret (mkDec (if set then SM else RM) ((if private then [63] else []) ++ arg) (length enc) (enc ++ rest))
    /\ decode_mode private arg = (with_private private m, length arg, None).
Proof. exact mode_round_trip. Qed.
Print Assumptions c11_mode_round_trip.

Example c11_example : exists s, mode_set (with_private true 1049) = Ret s
  /\ seq_append_to [] s = Ret [27; 91; 63; 49; 48; 52; 57; 104].
Proof. eexists. split; [vm_compute; reflexivity|]. reflexivity. Qed.

(** ** C17: any program deriving any number of sequences from one another, run over a
    heap of shared backing arrays and for any slice growth policy of the runtime,
    behaves like the same program over plain lists: each sequence ever made writes
    exactly its own arguments.  (0xEF7F and 0xEF80 can be built but not written.) *)
Theorem c17_value_semantics : forall grow ops,
  match run_ops (h_step grow) h_init ops with
  | Ret (h, seqs) =>
    exists al, a_run [] ops = Some al
    /\ Forall2 (fun s a => fst (fst a) <> 61311 -> fst (fst a) <> 61312 -> forall p,
                 exists enc, seq_append_to p (h_abs h s) = Ret (p ++ enc) /\ encodes a enc) seqs al
  | Panic => a_run [] ops = None
  | Diverge => False
  end.
Proof. exact seq_programs. Qed.
Print Assumptions c17_value_semantics.

Example c17_example :
  let ops := [OpNew (CSI 109); OpWithInts 0 [1;2;3;4]; OpWithInts 1 [5]; OpWithInts 1 [6;7]; OpWith 2 [63;33;34;35]] in
  exists st, run_ops (h_step (fun c => 2 * c + 8)%nat) h_init ops = Ret st
    /\ a_run [] ops = Some [(CSI 109, [], []); (CSI 109, [], [1;2;3;4]); (CSI 109, [], [1;2;3;4;5]);
                            (CSI 109, [], [1;2;3;4;6;7]); (CSI 109, [63;33;34;35], [1;2;3;4;5])].
Proof. eexists. split; [vm_compute; reflexivity|reflexivity]. Qed.

(** ** C18 *)
Theorem c18_ids_distinct : forall a b, 0 < a < 127 -> 0 < b < 127 ->
  (ESC a = ESC b -> a = b) /\ (CSI a = CSI b -> a = b) /\ ESC a <> CSI b
  /\ is_escape (ESC a) = true /\ is_escape (CSI a) = true
  /\ escape_ESC (ESC a) = Some a /\ escape_CSI (CSI a) = Some a
  /\ escape_ESC (CSI a) = None /\ escape_CSI (ESC a) = None.
Proof. exact ids_distinct. Qed.
Print Assumptions c18_ids_distinct.

Theorem c18_ids_reserved : forall r b, is_escape r = false -> is_byte b -> ESC b <> r /\ CSI b <> r.
Proof. exact ids_reserved. Qed.
Print Assumptions c18_ids_reserved.

Theorem c18_ids_recover : forall id,
  (forall b, escape_ESC id = Some b -> ESC b = id /\ 0 < b < 127)
  /\ (forall b, escape_CSI id = Some b -> CSI b = id /\ 0 < b < 127).
Proof. exact ids_recover. Qed.
Print Assumptions c18_ids_recover.

Example c18_example : escape_CSI (CSI 109) = Some 109 /\ is_escape 155 = false.
Proof. split; reflexivity. Qed.
