(** Model of the base64 and hex helpers of /repo/src/est/est.c. *)
From Coq Require Import String ZArith List Bool.
From Verif Require Import Base Model.CLib Spec.Base64.
Import ListNotations.
Open Scope Z_scope.

(** ** est.c:843-867 est_base64_str_analyze, on a C string.
    Result: (len_no_whitespace, len, contains_newline).  isspace on a char
    above 127 is taken to be false. *)
Fixpoint first_lf (s : bytes) (i : Z) : option Z :=
  match s with
  | [] => None
  | c :: t => if c =? 10 then Some i else first_lf t (i + 1)
  end.
Definition est_base64_str_analyze (src : bytes) : Z * Z * bool :=
  (len (filter (fun c => negb (isspace c)) src), len src,
   match first_lf src 0 with
   | Some i => negb (i =? len src - 1)
   | None => false
   end).

(** est.c:940-943, the backwards scan for the last non-white-space character.
    [readable_before] says whether the byte before [src] may be read: the C
    loop tests src[idx] before idx >= 0. [UB] if it may not be and is. *)
Fixpoint last_non_ws (n : nat) (src : bytes) (readable_before : bool) : res Z :=
  match n with
  | O => if readable_before then Ok (-1) else UB
  | S n' => if isspace (nth n' src 0) then last_non_ws n' src readable_before else Ok (Z.of_nat n')
  end.

Section Bio.
(** BIO_read through a base64 filter (external, OpenSSL). *)
Variable bio : bool -> bytes -> Z -> bytes.

(** ** est.c:877-975 est_base64_decode.  [src] is the C string, [dst_size] the
    size argument.  Result: return value and the bytes stored in [dst] (only
    meaningful when the return value is positive).  Allocation failures of the
    BIOs are not modelled; C's truncating % and / are used on dst_size. *)
Definition est_base64_decode (readable_before : bool) (src : bytes) (dst_size : Z) : res (Z * bytes) :=
  let '(lnw, l, nl) := est_base64_str_analyze src in
  let max_in := if negb (Z.rem dst_size 3 =? 0) then (Z.quot dst_size 3 + 1) * 4
                else Z.quot dst_size 3 * 4 in
  if max_in <? lnw then Ok (0, [])
  else if negb (lnw mod 4 =? 0) then Ok (0, [])
  else
    idx <- last_non_ws (length src) src readable_before ;;
    if idx <? 2 then Ok (0, [])
    else
      let pad := if nth (Z.to_nat idx) src 0 =? 61
                 then (if nth (Z.to_nat (idx - 1)) src 0 =? 61 then 2 else 1) else 0 in
      let expected := (3 * lnw) / 4 - pad in
      let d := bio (negb nl) src dst_size in
      if negb (len d =? expected) then Ok (0, [])
      else Ok (len d, d).

End Bio.

(** What BIO_write + BIO_flush through a base64 filter leave in the memory BIO
    (OpenSSL, external; given by RFC 4648 and OpenSSL's 64-character lines). *)
Definition bio_b64_text (src : bytes) (nl : bool) : bytes :=
  if nl then b64_wrap (b64_encode src) else b64_encode src.

(** ** est.c:986-1058 est_base64_encode.  [dst] is the destination block (its
    length is its allocation), [max_dst_len] the size argument.  memcpy_s of
    the stub copies nothing when the text does not fit in max_dst_len
    (safe_mem_stub.c:65-70), but the NUL is written at dst[length] in any case.
    Result: return value and the block afterwards. *)
Definition est_base64_encode (src : bytes) (dst : bytes) (max_dst_len : Z) (nl : bool) : res (Z * bytes) :=
  let max_src_len := Z.quot (max_dst_len * 3) 4 + 1 in
  if max_src_len <? len src then Ok (0, dst)
  else if len src =? 0 then Ok (0, dst)
  else
    let text := bio_b64_text src nl in
    d1 <- (if max_dst_len <? len text then Ok dst
           else if len dst <? len text then UB
           else Ok (text ++ skipn (length text) dst)) ;;
    d2 <- wr d1 (len text) 0 ;;
    Ok (len text, d2).

(** ** est.c:1159-1168 est_hex_to_str: writes at offset [i] of block [dst]. *)
Definition hexchar (v : Z) : Z := nth (Z.to_nat v) [48;49;50;51;52;53;54;55;56;57;97;98;99;100;101;102] 0.
Fixpoint est_hex_to_str (dst : bytes) (i : Z) (src : bytes) : res bytes :=
  match src with
  | [] => wr dst i 0
  | b :: t =>
    d1 <- wr dst i (hexchar (Z.shiftr b 4)) ;;
    d2 <- wr d1 (i + 1) (hexchar (Z.land b 15)) ;;
    est_hex_to_str d2 (i + 2) t
  end.

(** ** est.c:1069-1151 est_get_tls_uid.  [own_finished]/[peer_finished] are what
    SSL_get_finished / SSL_get_peer_finished return (external, at most
    MAX_FINISHED = 100 bytes stored), [tls13] is SSL_version > TLS 1.2.
    Result: [None] for NULL, else (uid, uid_len) with uid the calloc'ed block.
    A zero-length finished message makes the code read bptr->data[-1]. *)
Definition est_get_tls_uid (own_finished peer_finished : bytes) (reused tls13 is_client : bool)
  : res (option (bytes * Z)) :=
  let fin := if (is_client && negb reused) || (negb is_client && reused)
             then own_finished else peer_finished in
  let text := bio_b64_text fin true in
  let max_len := if tls13 then 65 else 17 in
  if max_len <? len text then Ok None
  else
    c <- rd text (len text - 1) ;;
    let uid_len := if c =? 10 then len text - 1 else len text in
    let blk := firstn (Z.to_nat uid_len) text
               ++ repeat 0 (Z.to_nat (max_len + 1 - uid_len)) in
    Ok (Some (blk, uid_len)).
