(** C25-C27, C51: base64, hex and the TLS binding value.
    Read with Spec/Base64.v (RFC 4648, the contract of OpenSSL's base64 BIO). *)
From Coq Require Import String ZArith List Bool Lia.
From Verif Require Import Base Spec.Base64 Model.Codec Proofs.Codec.
Import ListNotations.
Open Scope Z_scope.

(** C25.  Whatever the base64 filter of OpenSSL does within its contract,
    decoding what est_base64_encode produced (wrapped or not) gives back the
    bytes, into any destination at least as large as them. *)
Theorem C25_roundtrip : forall bio, b64_bio bio ->
  forall d nl dst n out readable_before dst_size, all_bytes d -> d <> [] ->
  est_base64_encode d dst (len dst) nl = Ok (n, out) -> 0 < n -> n < len dst -> len d <= dst_size ->
  exists text, cstr out = Ok text /\ len text = n
    /\ est_base64_decode bio readable_before text dst_size = Ok (len d, d).
Proof. exact base64_roundtrip. Qed.
Print Assumptions C25_roundtrip.

(** Any single-line RFC 4648 text, with or without a trailing line feed broken
    into 64-character lines, decodes to exactly its data. *)
Theorem C25_rfc : forall bio, b64_bio bio ->
  forall d readable_before dst_size, all_bytes d -> d <> [] -> len d <= dst_size ->
  est_base64_decode bio readable_before (b64_encode d) dst_size = Ok (len d, d) /\
  est_base64_decode bio readable_before (b64_wrap (b64_encode d)) dst_size = Ok (len d, d).
Proof. intros. split; [now apply decode_line|now apply decode_wrapped]. Qed.
Print Assumptions C25_rfc.

(** The result never exceeds the destination size, for any text at all. *)
Theorem C25_bound : forall bio, b64_bio bio ->
  forall readable_before src dst_size n d, 0 <= dst_size ->
  est_base64_decode bio readable_before src dst_size = Ok (n, d) ->
  0 <= n <= dst_size /\ n = len d /\ all_bytes d.
Proof. exact decode_bounded. Qed.
Print Assumptions C25_bound.

(** Memory safety: every text with a visible character is safe ... *)
Theorem C25_safe : forall bio readable_before src dst_size,
  readable_before = true \/ (exists c, In c src /\ isspace c = false) ->
  is_ok (est_base64_decode bio readable_before src dst_size).
Proof. exact decode_safe. Qed.
Print Assumptions C25_safe.

(** ... but an empty or all-blank text makes the scan read the byte before the
    string, whatever the filter does. *)
Theorem C25_blank_refuted : forall bio src dst_size, 0 <= dst_size ->
  (forall c, In c src -> isspace c = true) -> est_base64_decode bio false src dst_size = UB.
Proof. exact decode_blank. Qed.
Print Assumptions C25_blank_refuted.

Example C25_contract_satisfiable : b64_bio rfc_bio.
Proof. exact rfc_bio_ok. Qed.
Example C25_case :
  est_base64_encode (str "MEQwEQ==?") (repeat 7 40) 40 false = Ok (12, str "TUVRd0VRPT0/" ++ 0 :: repeat 7 27)
  /\ est_base64_decode rfc_bio false (str "TUVRd0VRPT0/") 10 = Ok (9, str "MEQwEQ==?")
  /\ est_base64_decode rfc_bio false (str "TUVRd0VRPT0/") 8 = Ok (0, []).
Proof. vm_compute. repeat split. Qed.

(** C26.  The full claim - a NUL-terminated text is written within max_dst_len
    bytes or 0 is returned - is false: three bytes and a four-byte buffer. *)
Theorem C26_refuted : exists src dst,
  src <> [] /\ all_bytes src /\ est_base64_encode src dst (len dst) false = UB.
Proof. exact encode_refuted. Qed.
Print Assumptions C26_refuted.

(** Exactly when the call stays within its buffer. *)
Theorem C26_exact_partial : forall src dst max (nl : bool), len dst = max ->
  (est_base64_encode src dst max nl <> UB <->
   src = [] \/ (max * 3) / 4 + 1 < len src \/ b64_text_len (len src) nl < max).
Proof. exact encode_ok_iff'. Qed.
Print Assumptions C26_exact_partial.

(** When the text and its NUL fit, it is written, terminated, its length
    returned, and the rest of the buffer is untouched. *)
Theorem C26_fits_partial : forall src dst max (nl : bool), src <> [] -> len dst = max ->
  b64_text_len (len src) nl < max ->
  let text := if nl then b64_wrap (b64_encode src) else b64_encode src in
  est_base64_encode src dst max nl = Ok (len text, text ++ 0 :: skipn (S (length text)) dst).
Proof. exact encode_fits'. Qed.
Print Assumptions C26_fits_partial.

(** The library's own callers pass a buffer of twice the source length: safe
    from five source bytes up, in both modes. *)
Theorem C26_twice_partial : forall src dst (nl : bool), 5 <= len src -> len dst = 2 * len src ->
  let text := if nl then b64_wrap (b64_encode src) else b64_encode src in
  est_base64_encode src dst (2 * len src) nl = Ok (len text, text ++ 0 :: skipn (S (length text)) dst).
Proof. exact encode_twice. Qed.
Print Assumptions C26_twice_partial.

(** A source too long for the buffer is refused and nothing is written. *)
Theorem C26_refuse_partial : forall src dst max (nl : bool), 0 <= max -> (max * 3) / 4 + 1 < len src ->
  est_base64_encode src dst max nl = Ok (0, dst).
Proof. exact encode_refuse. Qed.
Print Assumptions C26_refuse_partial.

Example C26_case : est_base64_encode [77;97;110;33;33] (repeat 9 10) 10 true = Ok (9, str "TWFuISE=" ++ [10; 0]).
Proof. reflexivity. Qed.

(** C27.  Exactly two lower-case digits per byte and a NUL, nothing else is
    touched; one byte less of room is an overflow; the text determines the
    bytes. *)
Theorem C27_exact : forall src dst rest, all_bytes src -> len dst = 2 * len src + 1 ->
  est_hex_to_str (dst ++ rest) 0 src = Ok (hex_string src ++ 0 :: rest).
Proof. exact hex_exact. Qed.
Print Assumptions C27_exact.

Theorem C27_room : forall src dst, all_bytes src ->
  (is_ok (est_hex_to_str dst 0 src) <-> 2 * len src + 1 <= len dst).
Proof. exact hex_room. Qed.
Print Assumptions C27_room.

Theorem C27_injective : forall a b, all_bytes a -> all_bytes b -> hex_string a = hex_string b -> a = b.
Proof. exact hex_string_inj. Qed.
Print Assumptions C27_injective.

(** All digests the library prints (MD5, 16 bytes) fit in its 33-byte buffers. *)
Example C27_case : est_hex_to_str (repeat 1 5) 0 [0; 255] = Ok (str "00ff" ++ [0]).
Proof. reflexivity. Qed.

(** C51.  The value a client puts into its request is the one its server
    compares against: both ends derive it from the same (first) Finished
    message, swapped in a resumed session. *)
Theorem C51_agree : forall client_finished server_finished reused tls13,
  est_get_tls_uid client_finished server_finished reused tls13 true
  = est_get_tls_uid server_finished client_finished reused tls13 false.
Proof. exact uid_agree. Qed.
Print Assumptions C51_agree.

(** It is the base64 of that message without line feed, NUL-terminated ... *)
Theorem C51_value : forall own peer reused (tls13 : bool) is_client f,
  f = (if Bool.eqb is_client reused then peer else own) -> f <> [] -> all_bytes f ->
  let max := if tls13 then 48 else 12 in
  (len f <= max ->
   est_get_tls_uid own peer reused tls13 is_client =
   Ok (Some (b64_encode f ++ repeat 0 (Z.to_nat ((if tls13 then 66 else 18) - len (b64_encode f))),
             len (b64_encode f))))
  /\ (max < len f -> est_get_tls_uid own peer reused tls13 is_client = Ok None).
Proof. exact uid_value. Qed.
Print Assumptions C51_value.

(** ... so two sessions with different first Finished messages never share it. *)
Theorem C51_distinct : forall (cf sf : bytes) (reused tls13 : bool) (cf' sf' : bytes) (reused' : bool) uid n,
  let f := if reused then sf else cf in let f' := if reused' then sf' else cf' in
  f <> [] -> f' <> [] -> all_bytes f -> all_bytes f' ->
  est_get_tls_uid cf sf reused tls13 true = Ok (Some (uid, n)) ->
  est_get_tls_uid cf' sf' reused' tls13 true = Ok (Some (uid, n)) -> f = f'.
Proof. exact uid_distinct. Qed.
Print Assumptions C51_distinct.

Example C51_case : est_get_tls_uid [1;2;3;4;5;6;7;8;9;10;11;12] [] false false true
  = Ok (Some (str "AQIDBAUGBwgJCgsM" ++ [0; 0], 16)).
Proof. reflexivity. Qed.
