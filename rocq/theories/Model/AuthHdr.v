(** Model of the Authorization header: the server's parser
    (/repo/src/est/est_server_http.c) and what the client sends
    (/repo/src/est/est_client.c). *)
From Coq Require Import String ZArith List Bool.
From Verif Require Import Base Model.CLib Model.HttpServer Model.Codec.
Import ListNotations.
Open Scope Z_scope.

(** ** est.h:293-299 EST_HTTP_AUTH_MODE *)
Inductive auth_mode := AUTH_NONE | AUTH_BASIC | AUTH_DIGEST | AUTH_TOKEN | AUTH_FAIL.
Definition mode_eqb (a b : auth_mode) : bool :=
  match a, b with
  | AUTH_NONE, AUTH_NONE | AUTH_BASIC, AUTH_BASIC | AUTH_DIGEST, AUTH_DIGEST
  | AUTH_TOKEN, AUTH_TOKEN | AUTH_FAIL, AUTH_FAIL => true
  | _, _ => false
  end.

(** ** est.h:439-450 EST_HTTP_AUTH_HDR; [None] is a NULL pointer, strings are C
    strings. *)
Record auth_hdr := {
  ah_mode : auth_mode;
  ah_user : option bytes;
  ah_pwd : option bytes;
  ah_uri : option bytes;
  ah_cnonce : option bytes;
  ah_qop : option bytes;
  ah_nc : option bytes;
  ah_nonce : option bytes;
  ah_response : option bytes;
  ah_token : option bytes
}.

(** ** est_server.c:424-431 est_create_ah: all zero (AUTH_NONE is 0). *)
Definition est_create_ah : auth_hdr :=
  {| ah_mode := AUTH_NONE; ah_user := None; ah_pwd := None; ah_uri := None; ah_cnonce := None;
     ah_qop := None; ah_nc := None; ah_nonce := None; ah_response := None; ah_token := None |}.

Definition with_mode (a : auth_hdr) m :=
  {| ah_mode := m; ah_user := ah_user a; ah_pwd := ah_pwd a; ah_uri := ah_uri a;
     ah_cnonce := ah_cnonce a; ah_qop := ah_qop a; ah_nc := ah_nc a; ah_nonce := ah_nonce a;
     ah_response := ah_response a; ah_token := ah_token a |}.
Definition with_user (a : auth_hdr) v :=
  {| ah_mode := ah_mode a; ah_user := Some v; ah_pwd := ah_pwd a; ah_uri := ah_uri a;
     ah_cnonce := ah_cnonce a; ah_qop := ah_qop a; ah_nc := ah_nc a; ah_nonce := ah_nonce a;
     ah_response := ah_response a; ah_token := ah_token a |}.
Definition with_pwd (a : auth_hdr) v :=
  {| ah_mode := ah_mode a; ah_user := ah_user a; ah_pwd := Some v; ah_uri := ah_uri a;
     ah_cnonce := ah_cnonce a; ah_qop := ah_qop a; ah_nc := ah_nc a; ah_nonce := ah_nonce a;
     ah_response := ah_response a; ah_token := ah_token a |}.
Definition with_uri (a : auth_hdr) v :=
  {| ah_mode := ah_mode a; ah_user := ah_user a; ah_pwd := ah_pwd a; ah_uri := Some v;
     ah_cnonce := ah_cnonce a; ah_qop := ah_qop a; ah_nc := ah_nc a; ah_nonce := ah_nonce a;
     ah_response := ah_response a; ah_token := ah_token a |}.
Definition with_cnonce (a : auth_hdr) v :=
  {| ah_mode := ah_mode a; ah_user := ah_user a; ah_pwd := ah_pwd a; ah_uri := ah_uri a;
     ah_cnonce := Some v; ah_qop := ah_qop a; ah_nc := ah_nc a; ah_nonce := ah_nonce a;
     ah_response := ah_response a; ah_token := ah_token a |}.
Definition with_qop (a : auth_hdr) v :=
  {| ah_mode := ah_mode a; ah_user := ah_user a; ah_pwd := ah_pwd a; ah_uri := ah_uri a;
     ah_cnonce := ah_cnonce a; ah_qop := Some v; ah_nc := ah_nc a; ah_nonce := ah_nonce a;
     ah_response := ah_response a; ah_token := ah_token a |}.
Definition with_nc (a : auth_hdr) v :=
  {| ah_mode := ah_mode a; ah_user := ah_user a; ah_pwd := ah_pwd a; ah_uri := ah_uri a;
     ah_cnonce := ah_cnonce a; ah_qop := ah_qop a; ah_nc := Some v; ah_nonce := ah_nonce a;
     ah_response := ah_response a; ah_token := ah_token a |}.
Definition with_nonce (a : auth_hdr) v :=
  {| ah_mode := ah_mode a; ah_user := ah_user a; ah_pwd := ah_pwd a; ah_uri := ah_uri a;
     ah_cnonce := ah_cnonce a; ah_qop := ah_qop a; ah_nc := ah_nc a; ah_nonce := Some v;
     ah_response := ah_response a; ah_token := ah_token a |}.
Definition with_response (a : auth_hdr) v :=
  {| ah_mode := ah_mode a; ah_user := ah_user a; ah_pwd := ah_pwd a; ah_uri := ah_uri a;
     ah_cnonce := ah_cnonce a; ah_qop := ah_qop a; ah_nc := ah_nc a; ah_nonce := ah_nonce a;
     ah_response := Some v; ah_token := ah_token a |}.
Definition with_token (a : auth_hdr) v :=
  {| ah_mode := ah_mode a; ah_user := ah_user a; ah_pwd := ah_pwd a; ah_uri := ah_uri a;
     ah_cnonce := ah_cnonce a; ah_qop := ah_qop a; ah_nc := ah_nc a; ah_nonce := ah_nonce a;
     ah_response := ah_response a; ah_token := Some v |}.

Section Parse.
Variable bio : bool -> bytes -> Z -> bytes.

(** ** est_server_http.c:790-861 mg_parse_auth_hdr_basic.  [rest] is the header
    value from offset 6.  The decoded bytes go to both[512]; both[len] = 0 is a
    write inside it because len < 512.  strstr and strtok_s work on the C
    string in [both]; strndup allocation failure is not modelled.  The byte
    before [value] is part of the header, so it may be read. *)
Definition mg_parse_auth_hdr_basic (rest : bytes) (a : auth_hdr) : res auth_hdr :=
  let value := drop_while isspace rest in
  ' (n, d) <- est_base64_decode bio true value 512 ;;
  if (n <=? 0) || (512 <=? n) then Ok a
  else
    both <- wr (d ++ repeat 0 (Z.to_nat (512 - n))) n 0 ;;
    s <- cstr both ;;
    if negb (memb 58 s) then Ok a
    else
      let user := before_char 58 s in
      let pw := skipn (S (length user)) s in
      match user with
      | [] => if 1 <? n then Ok (with_mode (with_pwd a (strndup pw 255)) AUTH_BASIC) else Ok a
      | _ => Ok (with_mode (with_pwd (with_user a (strndup user 255)) (strndup pw 255)) AUTH_BASIC)
      end.

(** memcmp_s(name, n, lit, n, &i) with i == 0, on the block [m] at offset [o]. *)
Definition name_is (m : bytes) (o : Z) (lit : bytes) : res bool :=
  memcmp_eq (skipn (Z.to_nat o) m) lit (len lit).

(** ** est_server_http.c:880-942, the loop over name=value pairs in buf. *)
Fixpoint digest_loop (fuel : nat) (m : bytes) (s : Z) (a : auth_hdr) : res auth_hdr :=
  match fuel with
  | O => UB
  | S fuel' =>
    w <- cstr_at m s ;;
    let s1 := s + len (take_while isspace w) in
    ' (m1, name, s2) <- skip_quoted m s1 [61] [32] 0 ;;
    c <- rd m1 s2 ;;
    ' (m2, value, s3) <-
      (if c =? 34 then
         ' (m', v, s') <- skip_quoted m1 (s2 + 1) [34] [32] 92 ;;
         c' <- rd m' s' ;;
         Ok (m', v, if c' =? 44 then s' + 1 else s')
       else skip_quoted m1 s2 [44; 32] [32] 0) ;;
    n0 <- rd m2 name ;;
    if n0 =? 0 then Ok a
    else
      val <- cstr_at m2 value ;;
      b1 <- name_is m2 name (str "username") ;;
      if (b1 : bool) then digest_loop fuel' m2 s3 (with_user a (strndup val 255)) else
      b2 <- name_is m2 name (str "cnonce") ;;
      if (b2 : bool) then digest_loop fuel' m2 s3 (with_cnonce a (strndup val 64)) else
      b3 <- name_is m2 name (str "response") ;;
      if (b3 : bool) then digest_loop fuel' m2 s3 (with_response a (strndup val 64)) else
      b4 <- name_is m2 name (str "uri") ;;
      if (b4 : bool) then digest_loop fuel' m2 s3 (with_uri a (strndup val 255)) else
      b5 <- name_is m2 name (str "qop") ;;
      if (b5 : bool) then digest_loop fuel' m2 s3 (with_qop a (strndup val 10)) else
      b6 <- name_is m2 name (str "nc") ;;
      if (b6 : bool) then digest_loop fuel' m2 s3 (with_nc a (strndup val 9)) else
      b7 <- name_is m2 name (str "nonce") ;;
      if (b7 : bool) then digest_loop fuel' m2 s3 (with_nonce a (strndup val 64)) else
      digest_loop fuel' m2 s3 a
  end.

(** ** est_server_http.c:867-943 mg_parse_auth_hdr_digest.  [rest] is the header
    value from offset 7; buf has MAX_AUTH_HDR_LEN = 256+128 bytes and strcpy_s
    does not terminate it when [rest] does not fit. *)
Definition mg_parse_auth_hdr_digest (rest : bytes) (a : auth_hdr) : res auth_hdr :=
  digest_loop (S (Z.to_nat 384)) (strncpy_img rest 384) 0 (with_mode a AUTH_DIGEST).

(** ** est_server_http.c:950-990 mg_parse_auth_hdr_token.  [rest] is the header
    value from offset 6 (strlen("Bearer ") - 1), i.e. starting at the space. *)
Definition mg_parse_auth_hdr_token (rest : bytes) (a : auth_hdr) : res auth_hdr :=
  let value := drop_while isspace rest in
  ' (n, d) <- est_base64_decode bio true value 1024 ;;
  if (n <=? 0) || (1024 <=? n) then Ok a
  else
    dec <- wr (d ++ repeat 0 (Z.to_nat (1024 - n))) n 0 ;;
    s <- cstr dec ;;
    match value with
    | [] => Ok a
    | _ => Ok (with_mode (with_token a (strndup s 512)) AUTH_TOKEN)
    end.

(** ** est_locl.h:270-277 EST_HTTP_AUTH_HDR_RESULT *)
Inductive hdr_result := HDR_GOOD | HDR_MISSING | HDR_BAD | ECA_CSR_CHECK_FAIL | ECA_CSR_PARSE_FAIL | ECA_ERR.

Definition is_some {A} (o : option A) : bool := match o with Some _ => true | None => false end.

(** ** est_server_http.c:1003-1067 mg_parse_auth_header.  [cfg] is the server's
    auth_mode, [hdr] the Authorization header (NULL if absent), [uid] the
    256-byte conn->user_id.  Result: verdict, the header structure, the new
    conn->user_id. *)
Definition mg_parse_auth_header (cfg : auth_mode) (hdr : option bytes) (a : auth_hdr) (uid : bytes)
  : res (hdr_result * auth_hdr * bytes) :=
  match hdr with
  | None => Ok (HDR_MISSING, a, uid)
  | Some h =>
    let finish (a' : auth_hdr) :=
      if mode_eqb (ah_mode a') AUTH_DIGEST
         && negb (is_some (ah_uri a') && is_some (ah_nonce a') && is_some (ah_nc a') && is_some (ah_cnonce a'))
      then Ok (HDR_BAD, a', uid)
      else if mode_eqb (ah_mode a') AUTH_TOKEN then Ok (HDR_GOOD, a', uid)
      else match ah_user a' with
           | None => Ok (HDR_BAD, a', uid)
           | Some u => Ok (HDR_GOOD, a', strncpy_img u 256)
           end in
    if strncaseeq 7 h (str "Digest ") then
      if negb (mode_eqb cfg AUTH_DIGEST) then Ok (HDR_BAD, a, uid)
      else a' <- mg_parse_auth_hdr_digest (skipn 7 h) a ;; finish a'
    else if strncaseeq 6 h (str "Basic ") then
      if negb (mode_eqb cfg AUTH_BASIC) then Ok (HDR_BAD, a, uid)
      else a' <- mg_parse_auth_hdr_basic (skipn 6 h) a ;; finish a'
    else if strncaseeq 7 h (str "Bearer ") then
      if negb (mode_eqb cfg AUTH_TOKEN) then Ok (HDR_BAD, a, uid)
      else a' <- mg_parse_auth_hdr_token (skipn 6 h) a ;; finish a'
    else Ok (HDR_BAD, with_mode a AUTH_FAIL, uid)
  end.
End Parse.

(** * The client *)

(** snprintf(dst, n, ...) of a formatted [text] into a block of at least [n]
    bytes: what the C string in dst is afterwards. *)
Definition snprintf_str (text : bytes) (n : Z) : bytes :=
  if n <=? 0 then [] else firstn (Z.to_nat (n - 1)) text.

Section Client.
(** MD5 (external, OpenSSL); 16 bytes. *)
Variable md5 : bytes -> bytes.

(** ** est_client.c:900-978 est_client_generate_auth_digest; [user], [pwd],
    [uri], [realm], [s_nonce], [c_nonce] are C strings.  The hex buffers are 33
    bytes.  strnlen_s(x, n) caps the lengths. *)
Definition hex33 (d : bytes) : res bytes := b <- est_hex_to_str (repeat 0 33) 0 d ;; cstr b.
Definition est_client_generate_auth_digest (user pwd uri realm s_nonce c_nonce : bytes) : res bytes :=
  ha1 <- hex33 (md5 (strndup user 255 ++ [58] ++ strndup realm 255 ++ [58] ++ strndup pwd 255)) ;;
  ha2 <- hex33 (md5 (str "POST" ++ [58] ++ strndup uri 255)) ;;
  hex33 (md5 (ha1 ++ [58] ++ strndup s_nonce 64 ++ [58] ++ strndup (str "00000001") 9 ++ [58]
              ++ strndup c_nonce 64 ++ [58] ++ str "auth" ++ [58] ++ ha2)).

(** ** est_server.c:362-417 est_server_generate_auth_digest.  [ha1] is the
    32-character string supplied by the application.  A NULL uri, nonce, nc or
    cnonce gives length 0 to strnlen_s (stub) and nothing is hashed for it; it
    cannot happen for a header accepted by mg_parse_auth_header. *)
Definition opt_str (o : option bytes) (n : Z) : bytes := match o with Some s => strndup s n | None => [] end.
Definition est_server_generate_auth_digest (a : auth_hdr) (ha1 : bytes) : res bytes :=
  ha2 <- hex33 (md5 (str "POST" ++ [58] ++ opt_str (ah_uri a) 255)) ;;
  if len ha1 <? 31 then UB else
  hex33 (md5 (firstn 32 (ha1 ++ [0]) ++ [58] ++ opt_str (ah_nonce a) 64 ++ [58] ++ opt_str (ah_nc a) 9 ++ [58]
              ++ opt_str (ah_cnonce a) 64 ++ [58] ++ str "auth" ++ [58] ++ ha2)).

(** What the application's auth_credentials_cb supplies (NULL pointers as
    [None]); without a callback all are NULL. *)
Record cred := { cr_user : option bytes; cr_pwd : option bytes; cr_token : option bytes }.

(** ** est_client.c:986-1044 est_client_retrieve_credentials: too long or
    missing strings become empty.  user and pwd are zeroed 256-byte arrays, so
    copying up to 255 characters leaves them terminated. *)
Definition retrieved (o : option bytes) : bytes :=
  match o with
  | None => []
  | Some s => if 255 <? len s then [] else s
  end.

(** The credentials used for Basic and Digest (est_client.c:1089-1107,
    1137-1153): the configured ones unless both are empty, else the callback's. *)
Definition client_cred (userid password : bytes) (c : cred) : bytes * bytes :=
  match userid, password with
  | [], [] => (retrieved (cr_user c), retrieved (cr_pwd c))
  | _, _ => (userid, password)
  end.

(** ** est_client.c:1056-1235 est_client_add_auth_hdr.  [hdr] is the request
    text built so far, in a buffer of 5125 bytes; [rnd] the 8 random bytes
    (RAND_bytes; its failure: Model/Client.v).  For Digest a configured user id
    is copied with strncpy(…, 255) into an uninitialised array of 256 bytes
    (1145-1149) and printed with %s: [UB] if it has 255 characters.  Result: the
    text afterwards. *)
Definition est_client_add_auth_hdr (mode : auth_mode) (userid password realm s_nonce : bytes) (c : cred)
           (rnd hdr uri : bytes) : res bytes :=
  let room := 5125 - len hdr in
  match mode with
  | AUTH_BASIC =>
    let '(user, pwd) := client_cred userid password c in
    let both := snprintf_str (user ++ [58] ++ pwd) 512 in
    ' (n, blk) <- est_base64_encode both (repeat 0 (Z.to_nat 1020)) 1020 false ;;
    b64 <- cstr blk ;;
    Ok (hdr ++ snprintf_str (str "Authorization: Basic " ++ b64 ++ [13; 10]) room)
  | AUTH_DIGEST =>
    c_nonce <- est_hex_to_str (repeat 0 65) 0 rnd ;;
    cn <- cstr c_nonce ;;
    let '(user, pwd) := client_cred userid password c in
    if 255 <=? len userid then UB else
    digest <- est_client_generate_auth_digest user pwd uri realm s_nonce cn ;;
    Ok (hdr ++ snprintf_str
          (str "Authorization: Digest username=" ++ [34] ++ user ++ [34] ++ str ", realm=" ++ [34] ++ realm ++ [34]
           ++ str ", nonce=" ++ [34] ++ s_nonce ++ [34] ++ str ", uri=" ++ [34] ++ uri ++ [34]
           ++ str ", cnonce=" ++ [34] ++ cn ++ [34] ++ str ", nc=00000001, qop=" ++ [34] ++ str "auth" ++ [34]
           ++ str ", response=" ++ [34] ++ digest ++ [34] ++ [13; 10]) room)
  | AUTH_TOKEN =>
    let token := match cr_token c with
                 | None => []
                 | Some t => if 512 <? len t then [] else t
                 end in
    ' (n, blk) <- est_base64_encode token (repeat 0 (Z.to_nat 1024)) 1024 false ;;
    b64 <- cstr blk ;;
    Ok (hdr ++ snprintf_str (str "Authorization: Bearer " ++ b64 ++ [13; 10]) room)
  | _ => Ok hdr
  end.
End Client.
