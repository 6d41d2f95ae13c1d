(** C50: what is left in memory of passwords, tokens and generated private keys
    once they are no longer needed. *)
From Coq Require Import String ZArith List Bool Lia ZifyBool ZifyNat.
From Verif Require Import Base Model.CLib Model.EstErr Model.Codec Model.AuthHdr Model.HttpServer Model.Wipe
  Spec.Base64 Spec.Wipe Proofs.Codec Proofs.AuthHdr Proofs.Wipe.
Import ListNotations.
Open Scope Z_scope.

(** ** What is wiped *)

(** Whatever Authorization header arrives, when the request is over the block
    that held the password and the block that held the token, if there were any,
    are all zeros, terminating NUL included, when they are freed. *)
Theorem C50_header_partial : forall bio cfg h uid v a u,
  mg_parse_auth_header bio cfg h est_create_ah uid = Ok (v, a, u) ->
  exists fr, est_destroy_ah (in_memory a) = Ok fr
    /\ (forall b, In (Password, b) fr <-> exists p, ah_pwd a = Some p /\ b = zeros (len p + 1))
    /\ (forall b, In (Token, b) fr <-> exists t, ah_token a = Some t /\ b = zeros (len t + 1)).
Proof. exact destroy_header. Qed.
Print Assumptions C50_header_partial.

(** The same for the user name and password the server makes up for a
    certificate in Enhanced Certificate Authentication: the configured password
    has at most 255 characters (C20). *)
Theorem C50_eca_partial : forall f pwd, no_nul pwd -> len pwd <= 255 ->
  exists fr, est_destroy_ah (in_memory (with_pwd (with_user (with_mode est_create_ah AUTH_BASIC) (strndup f 256)) (strndup pwd 256)))
      = Ok fr /\ In (Password, zeros (len pwd + 1)) fr /\ forall b, In (Password, b) fr -> blank b.
Proof. exact destroy_eca. Qed.
Print Assumptions C50_eca_partial.

(** Credentials the application handed to the client: every string within its
    limit is zeros when its block is freed; only what the application had
    allocated behind it is as it was. *)
Theorem C50_application_partial : forall a u p t bu bp bt,
  ah_user a = Some bu -> block_of u bu -> len u <= 255 ->
  ah_pwd a = Some bp -> block_of p bp -> len p <= 255 ->
  ah_token a = Some bt -> block_of t bt -> len t <= 512 ->
  ah_uri a = None -> ah_cnonce a = None -> ah_qop a = None -> ah_nc a = None -> ah_nonce a = None -> ah_response a = None ->
  cleanse_auth_credentials a
    = Ok [(User, zeros (len u) ++ skipn (length u) bu); (Password, zeros (len p) ++ skipn (length p) bp);
          (Token, zeros (len t) ++ skipn (length t) bt)].
Proof. exact cleanse_strings. Qed.
Print Assumptions C50_application_partial.

(** A private key the server generated: whether or not the request succeeds,
    and whether or not the CA callback put another text in its place, exactly
    two blocks held it; the DER is zeros when freed, the text is zeros followed
    by whatever was behind it. *)
Theorem C50_generated_partial : forall rc der fresh cb, 5 <= len der -> len fresh = 2 * len der ->
  (forall b n, cb = Some (b, n) -> 0 <= n <= len b) ->
  let text := b64_wrap (b64_encode der) in
  exists fr t rest, keygen_memory rc der fresh cb = Ok fr
    /\ (fr = [(KeyDer, zeros (len der)); (KeyText, zeros (len t) ++ rest)] \/ fr = [(KeyText, zeros (len t) ++ rest); (KeyDer, zeros (len der))])
    /\ match cb with
       | None => t = text /\ rest = 0 :: skipn (S (length text)) fresh
       | Some (b, n) => b = t ++ rest /\ len t = n
       end.
Proof. exact keygen_wiped. Qed.
Print Assumptions C50_generated_partial.

(** The same key on its way out over CoAP, when it can be decoded. *)
Theorem C50_coap_partial : forall text slack junk d,
  coap_keygen_memory text slack junk d (len d)
    = Ok [(KeyText, zeros (len text) ++ slack); (KeyText, zeros (len text + 1)); (KeyDer, zeros (len d) ++ skipn (length d) junk)].
Proof. exact coap_wiped. Qed.
Print Assumptions C50_coap_partial.

(** The client's copy of a key, once the application has taken it. *)
Theorem C50_copied_partial : forall key, copied_key_memory key = Ok [(KeyText, zeros (len key + 1))].
Proof. exact copied_wiped. Qed.
Print Assumptions C50_copied_partial.

(** The proxy's copy, when the answer could be written or there was none. *)
Theorem C50_proxy_partial : forall http w block klen clen, len block = 8192 -> 0 <= klen <= 8192 ->
  (0 < klen -> 0 < clen -> http = true -> w = EST_ERR_NONE) ->
  exists b, proxy_keygen_memory http w block klen clen = Ok ([(KeyText, b)], [])
    /\ (0 < klen -> 0 < clen -> b = zeros klen ++ skipn (Z.to_nat klen) block)
    /\ (klen <= 0 \/ clen <= 0 -> b = zeros 8192).
Proof. exact proxy_wiped. Qed.
Print Assumptions C50_proxy_partial.

(** ** What is not *)

(** The client frees every key it receives unwiped: the response, the part with
    the key and the buffer it was copied to all still hold the key; so does the
    key of an earlier enrollment; and the decoded key is lost, not freed. *)
Theorem C50_client_refuted : forall raw key junk old der, holds key raw ->
  let '(fr, lost) := client_keygen_memory raw key junk (Some old) (Some der) in
  Forall (fun ob => holds key (snd ob) \/ holds old (snd ob)) fr /\ len fr = 4 /\ In der lost
  /\ In (KeyText, old ++ [0]) fr.
Proof. exact client_not_wiped. Qed.
Print Assumptions C50_client_refuted.

(** Destroying a context leaves its passwords in the freed block and a key not
    fetched by the application in a block nobody refers to. *)
Theorem C50_context_refuted : forall password eca key, len password <= 255 -> len eca <= 255 ->
  let '(fr, lost) := est_destroy password eca (Some key) in
  exists b, fr = [(Context, b)] /\ holds password b /\ holds eca b /\ In (key ++ [0]) lost.
Proof. exact context_not_wiped. Qed.
Print Assumptions C50_context_refuted.

(** A password longer than 255 characters handed to the client: everything
    from the 256th on is in the block when it is freed.  The same for a token
    longer than 512. *)
Theorem C50_long_refuted : forall s, no_nul s ->
  (255 < len s -> exists b, cleanse_auth_credentials (with_pwd est_create_ah (s ++ [0])) = Ok [(Password, b)] /\ holds (skipn 255 s) b)
  /\ (512 < len s -> exists b, cleanse_auth_credentials (with_token est_create_ah (s ++ [0])) = Ok [(Token, b)] /\ holds (skipn 512 s) b).
Proof. exact long_not_wiped. Qed.
Print Assumptions C50_long_refuted.

(** CoAP: what was decoded of a key whose decoding then failed is not wiped. *)
Theorem C50_coap_refuted : forall text slack junk d,
  exists r k b, coap_keygen_memory text slack junk d 0 = Ok [r; k; (KeyDer, b)] /\ holds d b.
Proof. exact coap_not_wiped. Qed.
Print Assumptions C50_coap_refuted.

(** The proxy forgets the key, unwiped, when it cannot be passed on. *)
Theorem C50_proxy_refuted : forall w block klen clen, w <> EST_ERR_NONE -> 0 < klen -> 0 < clen ->
  proxy_keygen_memory true w block klen clen = Ok ([], [block]).
Proof. exact proxy_not_wiped. Qed.
Print Assumptions C50_proxy_refuted.

(** Cases. *)
Example C50_header_case :
  mg_parse_auth_header rfc_bio AUTH_BASIC (Some (str "Basic ZXN0dXNlcjpwYXNz")) est_create_ah (repeat 0 256)
    = Ok (HDR_GOOD, with_mode (with_pwd (with_user est_create_ah (str "estuser")) (str "pass")) AUTH_BASIC, strncpy_img (str "estuser") 256)
  /\ est_destroy_ah (in_memory (with_mode (with_pwd (with_user est_create_ah (str "estuser")) (str "pass")) AUTH_BASIC))
    = Ok [(User, str "estuser" ++ [0]); (Password, [0; 0; 0; 0; 0])].
Proof. split; vm_compute; reflexivity. Qed.
Example C50_generated_case :
  keygen_memory EST_ERR_CA_ENROLL_FAIL [1; 2; 3; 4; 5; 6] (repeat 7 12) None
    = Ok [(KeyText, repeat 0 10 ++ [7; 7]); (KeyDer, repeat 0 6)]
  /\ keygen_memory EST_ERR_NONE [1; 2; 3; 4; 5; 6] (repeat 7 12) (Some (str "other key" ++ [7], 9))
    = Ok [(KeyDer, repeat 0 6); (KeyText, repeat 0 9 ++ [7])].
Proof. split; vm_compute; reflexivity. Qed.
Example C50_application_case : block_of (str "secret") (str "secret" ++ [0; 9; 9]) /\ len (str "secret") <= 255.
Proof. split; [|vm_compute; discriminate]. split; [|now exists [9; 9]]. unfold no_nul. cbn. intuition discriminate. Qed.
Example C50_client_case : holds (str "key") (str "HTTP/1.1 200 OK" ++ str "key" ++ str "--").
Proof. now eexists _, _. Qed.
