(** Loading the trusted CA certificates.  OpenSSL's part is given by [ossl]: what
    it reads from a PEM text, and what its store takes. *)
From Coq Require Import ZArith List Bool.
From Verif Require Import Base Model.EstErr Model.SafeC Model.Peer.
Import ListNotations.
Open Scope Z_scope.

(** A certificate: the subject X509_NAME_print_ex prints, and its encoding. *)
Record cert := { t_subject : bytes; t_der : bytes }.
(** An X509_INFO of the PEM reader: a certificate, a CRL, both, or neither (a key). *)
Record info := { i_x509 : option cert; i_crl : option bytes }.
(** What a store holds. *)
Inductive item := Anchor (der : bytes) | Crl (der : bytes).
Record ossl := {
  o_read : bytes -> option (list info);  (* PEM_X509_INFO_read_bio; None: NULL *)
  o_takes : item -> bool;                (* X509_STORE_add_cert, _add_crl succeed *)
  o_store_new : bool                     (* X509_STORE_new succeeds *)
}.

(** X509_STORE_add_cert, X509_STORE_add_crl: the results are not looked at. *)
Definition add (X : ossl) (store : list item) (x : item) : list item := if o_takes X x then store ++ [x] else store.

(** est_ossl_util.c:246-270: the loop of ossl_init_cert_store_from_raw.  The
    subject of each certificate is printed for the log into a block of 255
    octets (calloc succeeds). *)
Fixpoint load_loop (X : ossl) (sk : list info) (store : list item) (cert_cnt : Z) : res (Z * list item) :=
  match sk with
  | [] => Ok (cert_cnt, store)
  | xi :: sk' =>
    ' (store, cert_cnt) <- match i_x509 xi with
      | None => Ok (store, cert_cnt)
      | Some c =>
        _ <- est_get_subj_fld_from_cert (t_subject c) (repeat 0 (Z.to_nat EST_MAX_CERT_SUBJ_LEN)) EST_MAX_CERT_SUBJ_LEN ;;
        Ok (add X store (Anchor (t_der c)), cert_cnt + 1)
      end ;;
    let store := match i_crl xi with None => store | Some r => add X store (Crl r) end in
    load_loop X sk' store cert_cnt
  end.
(** est_ossl_util.c:224-275 ossl_init_cert_store_from_raw.  BIO_new_mem_buf
    succeeds. *)
Definition ossl_init_cert_store_from_raw (X : ossl) (store : list item) (raw : bytes) : res (Z * list item) :=
  match o_read X raw with
  | None => Ok (0, store)
  | Some sk => load_loop X sk store 0
  end.
(** est_ossl_util.c:287-301 ossl_init_cert_store *)
Definition ossl_init_cert_store (X : ossl) (store : list item) (raw1 : option bytes) : res (est_error * list item) :=
  match raw1 with
  | None => Ok (EST_ERR_NONE, store)
  | Some raw =>
    ' (cnt, store) <- ossl_init_cert_store_from_raw X store raw ;;
    Ok (if cnt =? 0 then EST_ERR_NO_CERTS_FOUND else EST_ERR_NONE, store)
  end.
(** est.c:658-679 est_load_trusted_certs: the error and trusted_certs_store. *)
Definition est_load_trusted_certs (X : ossl) (certs : option bytes) : res (est_error * option (list item)) :=
  if negb (o_store_new X) then Ok (EST_ERR_LOAD_TRUST_CERTS, None)
  else ' (rv, store) <- ossl_init_cert_store X [] certs ;; Ok (rv, Some store).

(** est_locl.h:68 *)
Definition EST_CA_MAX : Z := 2000000.
(** est_client.c:4486-4510 est_client_init, 3213-3222 and 3276-3280 of
    est_server.c est_server_init, 2140-2146 and 2198-2202 of est_proxy.c
    est_proxy_init: the store that the TLS context gets, or [None] if NULL is
    returned.  [server]: NULL is refused by server and proxy.  [chain]: the block
    at ca_chain, [n]: ca_chain_len.  What else can fail there is left out. *)
Definition est_init_trust (X : ossl) (server : bool) (chain : option bytes) (n : Z) : res (option (list item)) :=
  let load certs :=
    ' (rv, store) <- est_load_trusted_certs X certs ;;
    Ok (if err_eqb rv EST_ERR_NONE then store else None) in
  match chain with
  | None => if server then Ok None else load None
  | Some block =>
    l <- strnlen_s (Some block) EST_CA_MAX ;;
    if l =? n then load (Some (firstn (Z.to_nat n) block)) else Ok None
  end.
