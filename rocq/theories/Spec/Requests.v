(** What a client's request says, as the EST protocol (RFC 7030) and HTTP have
    it.  Read with Spec/Http.v and Spec/Auth.v. *)
From Coq Require Import String ZArith List Bool.
From Verif Require Import Base Spec.Http Spec.Base64 Spec.Auth Model.AuthHdr.
Import ListNotations.
Open Scope Z_scope.

(** The path of an operation, with an optional label (RFC 7030, 3.2.2). *)
Definition request_uri (label : option bytes) (name : bytes) : bytes :=
  str "/.well-known/est" ++ match label with Some p => str "/" ++ p | None => [] end ++ str "/" ++ name.

(** A label that can stand in a URI as it is: printable_text, without a separator,
    percent sign or question mark, and not starting with two dots. *)
Definition plain_label (p : bytes) : Prop :=
  token p /\ len p <= 128 /\ ~ In 47 p /\ ~ In 92 p /\ ~ In 37 p /\ ~ In 63 p /\ ~ (exists r, p = 46 :: 46 :: r).

(** The server a client talks to. *)
Definition plain_server (name : bytes) (port : Z) : Prop :=
  Forall (fun c => 33 <= c <= 126) name /\ len name <= 255 /\ 0 <= port <= 65535.

Definition printable_text (s : bytes) : Prop := Forall (fun c => 32 <= c <= 126) s.

(** The credentials in use: configured ones, or those of the callback if there
    are none. *)
Definition uses (cuser cpwd : bytes) (c : cred) (user pwd : bytes) : Prop :=
  cuser = user /\ cpwd = pwd /\ ~ (user = [] /\ pwd = [])
  \/ cuser = [] /\ cpwd = [] /\ cr_user c = Some user /\ cr_pwd c = Some pwd.

(** The value of the Authorization header for each way the server may have
    asked for credentials. *)
Inductive authorizes (md5 : bytes -> bytes) (cuser cpwd realm nonce : bytes) (c : cred) (rnd : option bytes) (name : bytes)
  : auth_mode -> option bytes -> Prop :=
| auth_none : authorizes md5 cuser cpwd realm nonce c rnd name AUTH_NONE None
| auth_basic : forall user pwd, uses cuser cpwd c user pwd -> c_str_max 255 user -> c_str_max 255 pwd ->
    authorizes md5 cuser cpwd realm nonce c rnd name AUTH_BASIC (Some (basic_value user pwd))
| auth_token : forall token, cr_token c = Some token -> c_str_max 512 token -> token <> [] ->
    authorizes md5 cuser cpwd realm nonce c rnd name AUTH_TOKEN (Some (bearer_value token))
| auth_digest : forall user pwd random, uses cuser cpwd c user pwd -> printable_text user -> len user <= 254 -> len pwd <= 255 ->
    printable_text realm -> len realm <= 255 -> printable_text nonce -> len nonce <= 64 ->
    rnd = Some random -> len random = 8 -> all_bytes random ->
    (forall x, len (md5 x) = 16) -> (forall x, all_bytes (md5 x)) ->
    let uri := str "/.well-known/est/" ++ name in
    authorizes md5 cuser cpwd realm nonce c rnd name AUTH_DIGEST
      (Some (str "Digest " ++ digest_rest user realm nonce uri (hex_string random)
               (rfc2617_response md5 (rfc2617_ha1 md5 user realm pwd) (str "POST") uri nonce (str "00000001") (hex_string random)))).
