(** The configuration calls of the server API, est_server.c:3194-4346 and
    est_server_coap.c:3025-3291 (built with libcoap), on a context of any mode.
    Results of the environment (allocation, OpenSSL, libcoap, FIPS mode) are
    arguments of the call.  Not modelled: the fields of struct est_ctx no server
    request depends on (logging, ex_data, statistics); the manufacturer's name,
    which is only logged. *)
From Coq Require Import String ZArith List Bool.
From Verif Require Import Base Model.EstErr Model.AuthHdr Model.Server Model.CsrAttrs Spec.Der.
Import ListNotations.
Open Scope Z_scope.

Inductive est_mode := EST_SERVER | EST_PROXY | EST_CLIENT.

(** est_locl.h:301-310 ENCHD_CERT_MFG_INFO; a truststore is represented by the
    certificates it was made from. *)
Record slot := { sl_store : option bytes; sl_ctx : bool; sl_nid : Z }.
Definition no_slot : slot := {| sl_store := None; sl_ctx := false; sl_nid := 0 |}.

(** The callbacks an application can register. *)
Inductive callback := CbEnroll | CbReenroll | CbKeygenEnroll | CbCsrattrs | CbCacerts | CbHttpAuth | CbVoucher | CbVoucherStatus
  | CbEnrollStatus | CbKeygen.
Definition cb_eq_dec (a b : callback) : {a = b} + {a <> b}.
Proof. decide equality. Defined.

(** struct est_ctx, est_locl.h:389-578. *)
Record ctx := {
  x_mode : est_mode;
  x_transport : transport;
  x_auth_mode : auth_mode;
  x_required : Z;                 (* require_http_auth *)
  x_realm : bytes;
  x_retry : Z;
  x_brski_retry : Z;
  x_read_timeout : Z;
  x_eca : bool;
  x_csr_check : bool;
  x_local_nid : Z;
  x_pwd : bytes;
  x_mfgs : option (list slot);
  x_srp : bool;
  x_pop : bool;
  x_enforce : bool;
  x_csrattrs : option bytes;
  x_cacerts : option bytes;
  x_curve : Z;
  x_dh : bool;
  x_dtls_timer : Z;
  x_mtu : Z;
  x_sessions : Z;
  x_req_array : option Z;         (* entries allocated for coap_req_array *)
  x_req_max : Z;                  (* cur_max_coap_req_array *)
  x_port : Z;
  x_cbs : callback -> bool        (* which are registered *)
}.
(** Assignments to single fields. *)
Definition set_transport v c : ctx := {| x_mode := x_mode c; x_transport := v; x_auth_mode := x_auth_mode c; x_required := x_required c; x_realm := x_realm c; x_retry := x_retry c; x_brski_retry := x_brski_retry c; x_read_timeout := x_read_timeout c; x_eca := x_eca c; x_csr_check := x_csr_check c; x_local_nid := x_local_nid c; x_pwd := x_pwd c; x_mfgs := x_mfgs c; x_srp := x_srp c; x_pop := x_pop c; x_enforce := x_enforce c; x_csrattrs := x_csrattrs c; x_cacerts := x_cacerts c; x_curve := x_curve c; x_dh := x_dh c; x_dtls_timer := x_dtls_timer c; x_mtu := x_mtu c; x_sessions := x_sessions c; x_req_array := x_req_array c; x_req_max := x_req_max c; x_port := x_port c; x_cbs := x_cbs c |}.
Definition set_auth_mode v c : ctx := {| x_mode := x_mode c; x_transport := x_transport c; x_auth_mode := v; x_required := x_required c; x_realm := x_realm c; x_retry := x_retry c; x_brski_retry := x_brski_retry c; x_read_timeout := x_read_timeout c; x_eca := x_eca c; x_csr_check := x_csr_check c; x_local_nid := x_local_nid c; x_pwd := x_pwd c; x_mfgs := x_mfgs c; x_srp := x_srp c; x_pop := x_pop c; x_enforce := x_enforce c; x_csrattrs := x_csrattrs c; x_cacerts := x_cacerts c; x_curve := x_curve c; x_dh := x_dh c; x_dtls_timer := x_dtls_timer c; x_mtu := x_mtu c; x_sessions := x_sessions c; x_req_array := x_req_array c; x_req_max := x_req_max c; x_port := x_port c; x_cbs := x_cbs c |}.
Definition set_required v c : ctx := {| x_mode := x_mode c; x_transport := x_transport c; x_auth_mode := x_auth_mode c; x_required := v; x_realm := x_realm c; x_retry := x_retry c; x_brski_retry := x_brski_retry c; x_read_timeout := x_read_timeout c; x_eca := x_eca c; x_csr_check := x_csr_check c; x_local_nid := x_local_nid c; x_pwd := x_pwd c; x_mfgs := x_mfgs c; x_srp := x_srp c; x_pop := x_pop c; x_enforce := x_enforce c; x_csrattrs := x_csrattrs c; x_cacerts := x_cacerts c; x_curve := x_curve c; x_dh := x_dh c; x_dtls_timer := x_dtls_timer c; x_mtu := x_mtu c; x_sessions := x_sessions c; x_req_array := x_req_array c; x_req_max := x_req_max c; x_port := x_port c; x_cbs := x_cbs c |}.
Definition set_retry v c : ctx := {| x_mode := x_mode c; x_transport := x_transport c; x_auth_mode := x_auth_mode c; x_required := x_required c; x_realm := x_realm c; x_retry := v; x_brski_retry := x_brski_retry c; x_read_timeout := x_read_timeout c; x_eca := x_eca c; x_csr_check := x_csr_check c; x_local_nid := x_local_nid c; x_pwd := x_pwd c; x_mfgs := x_mfgs c; x_srp := x_srp c; x_pop := x_pop c; x_enforce := x_enforce c; x_csrattrs := x_csrattrs c; x_cacerts := x_cacerts c; x_curve := x_curve c; x_dh := x_dh c; x_dtls_timer := x_dtls_timer c; x_mtu := x_mtu c; x_sessions := x_sessions c; x_req_array := x_req_array c; x_req_max := x_req_max c; x_port := x_port c; x_cbs := x_cbs c |}.
Definition set_brski_retry v c : ctx := {| x_mode := x_mode c; x_transport := x_transport c; x_auth_mode := x_auth_mode c; x_required := x_required c; x_realm := x_realm c; x_retry := x_retry c; x_brski_retry := v; x_read_timeout := x_read_timeout c; x_eca := x_eca c; x_csr_check := x_csr_check c; x_local_nid := x_local_nid c; x_pwd := x_pwd c; x_mfgs := x_mfgs c; x_srp := x_srp c; x_pop := x_pop c; x_enforce := x_enforce c; x_csrattrs := x_csrattrs c; x_cacerts := x_cacerts c; x_curve := x_curve c; x_dh := x_dh c; x_dtls_timer := x_dtls_timer c; x_mtu := x_mtu c; x_sessions := x_sessions c; x_req_array := x_req_array c; x_req_max := x_req_max c; x_port := x_port c; x_cbs := x_cbs c |}.
Definition set_read_timeout v c : ctx := {| x_mode := x_mode c; x_transport := x_transport c; x_auth_mode := x_auth_mode c; x_required := x_required c; x_realm := x_realm c; x_retry := x_retry c; x_brski_retry := x_brski_retry c; x_read_timeout := v; x_eca := x_eca c; x_csr_check := x_csr_check c; x_local_nid := x_local_nid c; x_pwd := x_pwd c; x_mfgs := x_mfgs c; x_srp := x_srp c; x_pop := x_pop c; x_enforce := x_enforce c; x_csrattrs := x_csrattrs c; x_cacerts := x_cacerts c; x_curve := x_curve c; x_dh := x_dh c; x_dtls_timer := x_dtls_timer c; x_mtu := x_mtu c; x_sessions := x_sessions c; x_req_array := x_req_array c; x_req_max := x_req_max c; x_port := x_port c; x_cbs := x_cbs c |}.
Definition set_eca v c : ctx := {| x_mode := x_mode c; x_transport := x_transport c; x_auth_mode := x_auth_mode c; x_required := x_required c; x_realm := x_realm c; x_retry := x_retry c; x_brski_retry := x_brski_retry c; x_read_timeout := x_read_timeout c; x_eca := v; x_csr_check := x_csr_check c; x_local_nid := x_local_nid c; x_pwd := x_pwd c; x_mfgs := x_mfgs c; x_srp := x_srp c; x_pop := x_pop c; x_enforce := x_enforce c; x_csrattrs := x_csrattrs c; x_cacerts := x_cacerts c; x_curve := x_curve c; x_dh := x_dh c; x_dtls_timer := x_dtls_timer c; x_mtu := x_mtu c; x_sessions := x_sessions c; x_req_array := x_req_array c; x_req_max := x_req_max c; x_port := x_port c; x_cbs := x_cbs c |}.
Definition set_csr_check v c : ctx := {| x_mode := x_mode c; x_transport := x_transport c; x_auth_mode := x_auth_mode c; x_required := x_required c; x_realm := x_realm c; x_retry := x_retry c; x_brski_retry := x_brski_retry c; x_read_timeout := x_read_timeout c; x_eca := x_eca c; x_csr_check := v; x_local_nid := x_local_nid c; x_pwd := x_pwd c; x_mfgs := x_mfgs c; x_srp := x_srp c; x_pop := x_pop c; x_enforce := x_enforce c; x_csrattrs := x_csrattrs c; x_cacerts := x_cacerts c; x_curve := x_curve c; x_dh := x_dh c; x_dtls_timer := x_dtls_timer c; x_mtu := x_mtu c; x_sessions := x_sessions c; x_req_array := x_req_array c; x_req_max := x_req_max c; x_port := x_port c; x_cbs := x_cbs c |}.
Definition set_local_nid v c : ctx := {| x_mode := x_mode c; x_transport := x_transport c; x_auth_mode := x_auth_mode c; x_required := x_required c; x_realm := x_realm c; x_retry := x_retry c; x_brski_retry := x_brski_retry c; x_read_timeout := x_read_timeout c; x_eca := x_eca c; x_csr_check := x_csr_check c; x_local_nid := v; x_pwd := x_pwd c; x_mfgs := x_mfgs c; x_srp := x_srp c; x_pop := x_pop c; x_enforce := x_enforce c; x_csrattrs := x_csrattrs c; x_cacerts := x_cacerts c; x_curve := x_curve c; x_dh := x_dh c; x_dtls_timer := x_dtls_timer c; x_mtu := x_mtu c; x_sessions := x_sessions c; x_req_array := x_req_array c; x_req_max := x_req_max c; x_port := x_port c; x_cbs := x_cbs c |}.
Definition set_pwd v c : ctx := {| x_mode := x_mode c; x_transport := x_transport c; x_auth_mode := x_auth_mode c; x_required := x_required c; x_realm := x_realm c; x_retry := x_retry c; x_brski_retry := x_brski_retry c; x_read_timeout := x_read_timeout c; x_eca := x_eca c; x_csr_check := x_csr_check c; x_local_nid := x_local_nid c; x_pwd := v; x_mfgs := x_mfgs c; x_srp := x_srp c; x_pop := x_pop c; x_enforce := x_enforce c; x_csrattrs := x_csrattrs c; x_cacerts := x_cacerts c; x_curve := x_curve c; x_dh := x_dh c; x_dtls_timer := x_dtls_timer c; x_mtu := x_mtu c; x_sessions := x_sessions c; x_req_array := x_req_array c; x_req_max := x_req_max c; x_port := x_port c; x_cbs := x_cbs c |}.
Definition set_mfgs v c : ctx := {| x_mode := x_mode c; x_transport := x_transport c; x_auth_mode := x_auth_mode c; x_required := x_required c; x_realm := x_realm c; x_retry := x_retry c; x_brski_retry := x_brski_retry c; x_read_timeout := x_read_timeout c; x_eca := x_eca c; x_csr_check := x_csr_check c; x_local_nid := x_local_nid c; x_pwd := x_pwd c; x_mfgs := v; x_srp := x_srp c; x_pop := x_pop c; x_enforce := x_enforce c; x_csrattrs := x_csrattrs c; x_cacerts := x_cacerts c; x_curve := x_curve c; x_dh := x_dh c; x_dtls_timer := x_dtls_timer c; x_mtu := x_mtu c; x_sessions := x_sessions c; x_req_array := x_req_array c; x_req_max := x_req_max c; x_port := x_port c; x_cbs := x_cbs c |}.
Definition set_srp v c : ctx := {| x_mode := x_mode c; x_transport := x_transport c; x_auth_mode := x_auth_mode c; x_required := x_required c; x_realm := x_realm c; x_retry := x_retry c; x_brski_retry := x_brski_retry c; x_read_timeout := x_read_timeout c; x_eca := x_eca c; x_csr_check := x_csr_check c; x_local_nid := x_local_nid c; x_pwd := x_pwd c; x_mfgs := x_mfgs c; x_srp := v; x_pop := x_pop c; x_enforce := x_enforce c; x_csrattrs := x_csrattrs c; x_cacerts := x_cacerts c; x_curve := x_curve c; x_dh := x_dh c; x_dtls_timer := x_dtls_timer c; x_mtu := x_mtu c; x_sessions := x_sessions c; x_req_array := x_req_array c; x_req_max := x_req_max c; x_port := x_port c; x_cbs := x_cbs c |}.
Definition set_pop v c : ctx := {| x_mode := x_mode c; x_transport := x_transport c; x_auth_mode := x_auth_mode c; x_required := x_required c; x_realm := x_realm c; x_retry := x_retry c; x_brski_retry := x_brski_retry c; x_read_timeout := x_read_timeout c; x_eca := x_eca c; x_csr_check := x_csr_check c; x_local_nid := x_local_nid c; x_pwd := x_pwd c; x_mfgs := x_mfgs c; x_srp := x_srp c; x_pop := v; x_enforce := x_enforce c; x_csrattrs := x_csrattrs c; x_cacerts := x_cacerts c; x_curve := x_curve c; x_dh := x_dh c; x_dtls_timer := x_dtls_timer c; x_mtu := x_mtu c; x_sessions := x_sessions c; x_req_array := x_req_array c; x_req_max := x_req_max c; x_port := x_port c; x_cbs := x_cbs c |}.
Definition set_enforce v c : ctx := {| x_mode := x_mode c; x_transport := x_transport c; x_auth_mode := x_auth_mode c; x_required := x_required c; x_realm := x_realm c; x_retry := x_retry c; x_brski_retry := x_brski_retry c; x_read_timeout := x_read_timeout c; x_eca := x_eca c; x_csr_check := x_csr_check c; x_local_nid := x_local_nid c; x_pwd := x_pwd c; x_mfgs := x_mfgs c; x_srp := x_srp c; x_pop := x_pop c; x_enforce := v; x_csrattrs := x_csrattrs c; x_cacerts := x_cacerts c; x_curve := x_curve c; x_dh := x_dh c; x_dtls_timer := x_dtls_timer c; x_mtu := x_mtu c; x_sessions := x_sessions c; x_req_array := x_req_array c; x_req_max := x_req_max c; x_port := x_port c; x_cbs := x_cbs c |}.
Definition set_csrattrs v c : ctx := {| x_mode := x_mode c; x_transport := x_transport c; x_auth_mode := x_auth_mode c; x_required := x_required c; x_realm := x_realm c; x_retry := x_retry c; x_brski_retry := x_brski_retry c; x_read_timeout := x_read_timeout c; x_eca := x_eca c; x_csr_check := x_csr_check c; x_local_nid := x_local_nid c; x_pwd := x_pwd c; x_mfgs := x_mfgs c; x_srp := x_srp c; x_pop := x_pop c; x_enforce := x_enforce c; x_csrattrs := v; x_cacerts := x_cacerts c; x_curve := x_curve c; x_dh := x_dh c; x_dtls_timer := x_dtls_timer c; x_mtu := x_mtu c; x_sessions := x_sessions c; x_req_array := x_req_array c; x_req_max := x_req_max c; x_port := x_port c; x_cbs := x_cbs c |}.
Definition set_curve v c : ctx := {| x_mode := x_mode c; x_transport := x_transport c; x_auth_mode := x_auth_mode c; x_required := x_required c; x_realm := x_realm c; x_retry := x_retry c; x_brski_retry := x_brski_retry c; x_read_timeout := x_read_timeout c; x_eca := x_eca c; x_csr_check := x_csr_check c; x_local_nid := x_local_nid c; x_pwd := x_pwd c; x_mfgs := x_mfgs c; x_srp := x_srp c; x_pop := x_pop c; x_enforce := x_enforce c; x_csrattrs := x_csrattrs c; x_cacerts := x_cacerts c; x_curve := v; x_dh := x_dh c; x_dtls_timer := x_dtls_timer c; x_mtu := x_mtu c; x_sessions := x_sessions c; x_req_array := x_req_array c; x_req_max := x_req_max c; x_port := x_port c; x_cbs := x_cbs c |}.
Definition set_dh v c : ctx := {| x_mode := x_mode c; x_transport := x_transport c; x_auth_mode := x_auth_mode c; x_required := x_required c; x_realm := x_realm c; x_retry := x_retry c; x_brski_retry := x_brski_retry c; x_read_timeout := x_read_timeout c; x_eca := x_eca c; x_csr_check := x_csr_check c; x_local_nid := x_local_nid c; x_pwd := x_pwd c; x_mfgs := x_mfgs c; x_srp := x_srp c; x_pop := x_pop c; x_enforce := x_enforce c; x_csrattrs := x_csrattrs c; x_cacerts := x_cacerts c; x_curve := x_curve c; x_dh := v; x_dtls_timer := x_dtls_timer c; x_mtu := x_mtu c; x_sessions := x_sessions c; x_req_array := x_req_array c; x_req_max := x_req_max c; x_port := x_port c; x_cbs := x_cbs c |}.
Definition set_dtls_timer v c : ctx := {| x_mode := x_mode c; x_transport := x_transport c; x_auth_mode := x_auth_mode c; x_required := x_required c; x_realm := x_realm c; x_retry := x_retry c; x_brski_retry := x_brski_retry c; x_read_timeout := x_read_timeout c; x_eca := x_eca c; x_csr_check := x_csr_check c; x_local_nid := x_local_nid c; x_pwd := x_pwd c; x_mfgs := x_mfgs c; x_srp := x_srp c; x_pop := x_pop c; x_enforce := x_enforce c; x_csrattrs := x_csrattrs c; x_cacerts := x_cacerts c; x_curve := x_curve c; x_dh := x_dh c; x_dtls_timer := v; x_mtu := x_mtu c; x_sessions := x_sessions c; x_req_array := x_req_array c; x_req_max := x_req_max c; x_port := x_port c; x_cbs := x_cbs c |}.
Definition set_mtu v c : ctx := {| x_mode := x_mode c; x_transport := x_transport c; x_auth_mode := x_auth_mode c; x_required := x_required c; x_realm := x_realm c; x_retry := x_retry c; x_brski_retry := x_brski_retry c; x_read_timeout := x_read_timeout c; x_eca := x_eca c; x_csr_check := x_csr_check c; x_local_nid := x_local_nid c; x_pwd := x_pwd c; x_mfgs := x_mfgs c; x_srp := x_srp c; x_pop := x_pop c; x_enforce := x_enforce c; x_csrattrs := x_csrattrs c; x_cacerts := x_cacerts c; x_curve := x_curve c; x_dh := x_dh c; x_dtls_timer := x_dtls_timer c; x_mtu := v; x_sessions := x_sessions c; x_req_array := x_req_array c; x_req_max := x_req_max c; x_port := x_port c; x_cbs := x_cbs c |}.
Definition set_sessions v c : ctx := {| x_mode := x_mode c; x_transport := x_transport c; x_auth_mode := x_auth_mode c; x_required := x_required c; x_realm := x_realm c; x_retry := x_retry c; x_brski_retry := x_brski_retry c; x_read_timeout := x_read_timeout c; x_eca := x_eca c; x_csr_check := x_csr_check c; x_local_nid := x_local_nid c; x_pwd := x_pwd c; x_mfgs := x_mfgs c; x_srp := x_srp c; x_pop := x_pop c; x_enforce := x_enforce c; x_csrattrs := x_csrattrs c; x_cacerts := x_cacerts c; x_curve := x_curve c; x_dh := x_dh c; x_dtls_timer := x_dtls_timer c; x_mtu := x_mtu c; x_sessions := v; x_req_array := x_req_array c; x_req_max := x_req_max c; x_port := x_port c; x_cbs := x_cbs c |}.
Definition set_port v c : ctx := {| x_mode := x_mode c; x_transport := x_transport c; x_auth_mode := x_auth_mode c; x_required := x_required c; x_realm := x_realm c; x_retry := x_retry c; x_brski_retry := x_brski_retry c; x_read_timeout := x_read_timeout c; x_eca := x_eca c; x_csr_check := x_csr_check c; x_local_nid := x_local_nid c; x_pwd := x_pwd c; x_mfgs := x_mfgs c; x_srp := x_srp c; x_pop := x_pop c; x_enforce := x_enforce c; x_csrattrs := x_csrattrs c; x_cacerts := x_cacerts c; x_curve := x_curve c; x_dh := x_dh c; x_dtls_timer := x_dtls_timer c; x_mtu := x_mtu c; x_sessions := x_sessions c; x_req_array := x_req_array c; x_req_max := x_req_max c; x_port := v; x_cbs := x_cbs c |}.
Definition set_cbs v c : ctx := {| x_mode := x_mode c; x_transport := x_transport c; x_auth_mode := x_auth_mode c; x_required := x_required c; x_realm := x_realm c; x_retry := x_retry c; x_brski_retry := x_brski_retry c; x_read_timeout := x_read_timeout c; x_eca := x_eca c; x_csr_check := x_csr_check c; x_local_nid := x_local_nid c; x_pwd := x_pwd c; x_mfgs := x_mfgs c; x_srp := x_srp c; x_pop := x_pop c; x_enforce := x_enforce c; x_csrattrs := x_csrattrs c; x_cacerts := x_cacerts c; x_curve := x_curve c; x_dh := x_dh c; x_dtls_timer := x_dtls_timer c; x_mtu := x_mtu c; x_sessions := x_sessions c; x_req_array := x_req_array c; x_req_max := x_req_max c; x_port := x_port c; x_cbs := v |}.
Definition set_req a m c : ctx := {| x_mode := x_mode c; x_transport := x_transport c; x_auth_mode := x_auth_mode c; x_required := x_required c; x_realm := x_realm c; x_retry := x_retry c; x_brski_retry := x_brski_retry c; x_read_timeout := x_read_timeout c; x_eca := x_eca c; x_csr_check := x_csr_check c; x_local_nid := x_local_nid c; x_pwd := x_pwd c; x_mfgs := x_mfgs c; x_srp := x_srp c; x_pop := x_pop c; x_enforce := x_enforce c; x_csrattrs := x_csrattrs c; x_cacerts := x_cacerts c; x_curve := x_curve c; x_dh := x_dh c; x_dtls_timer := x_dtls_timer c; x_mtu := x_mtu c; x_sessions := x_sessions c; x_req_array := a; x_req_max := m; x_port := x_port c; x_cbs := x_cbs c |}.

(** ** est_server.c:3194-3328 est_server_init.  [chain], [resp]: the buffers
    (NULL or C strings) and [chain_len], [resp_len] their claimed lengths;
    strnlen_s is bounded by EST_CA_MAX (2000000).  [load_resp], [load_chain]:
    whether OpenSSL parsed them; [alloc]: the allocation of the CoAP array. *)
Definition est_server_init (chain : option bytes) (chain_len : Z) (resp : option bytes) (resp_len : Z) (pem : bool)
    (realm : option bytes) (cert key load_resp load_chain alloc : bool) : option ctx :=
  match chain with
  | None => None
  | Some ch =>
    if negb pem then None
    else if negb (Z.min (len ch) 2000000 =? chain_len) then None
    else if match resp with Some r => negb (Z.min (len r) 2000000 =? resp_len) | None => false end then None
    else if negb cert then None
    else if negb key then None
    else match realm with
    | None => None
    | Some re =>
      if match resp with Some _ => negb load_resp | None => false end then None
      else if negb load_chain then None
      else if negb alloc then None
      else Some {| x_mode := EST_SERVER; x_transport := EST_HTTP; x_auth_mode := AUTH_BASIC; x_required := 1;
                   x_realm := firstn 255 re;   (* strcpy_s into a zeroed buffer of 256 *)
                   x_retry := 3600; x_brski_retry := 30; x_read_timeout := 10;
                   x_eca := false; x_csr_check := false; x_local_nid := 0; x_pwd := []; x_mfgs := None;
                   x_srp := false; x_pop := true; x_enforce := false; x_csrattrs := None; x_cacerts := resp;
                   x_curve := 0; x_dh := false; x_dtls_timer := 0; x_mtu := 0; x_sessions := 32;
                   x_req_array := Some 32; x_req_max := 32; x_port := 0; x_cbs := fun _ => false |}
    end
  end.

(** ** The calls *)
Inductive op :=
| SetAuthMode (mode : Z) (fips : bool)
| SetHttpAuthRequired (required : Z)
| EnableEca (nid : Z) (pwd : option bytes) (flag : Z)
| AddMfg (name : bool) (nid : Z) (certs : option bytes) (certs_len : Z) (alloc_list alloc_store : bool) (load : est_error) (alloc_ctx : bool)
| DisableEca
| EnableSrp (cb : bool)
| EnablePop
| DisablePop
| SetRetryPeriod (seconds : Z)
| SetCurve (nid : Z)
| SetDh (parms dup : bool)
| InitCsrattrs (attrs : option bytes)
| EnforceCsrattrs
| SetReadTimeout (seconds : Z)
| SetBrskiRetryPeriod (seconds : Z)
| SetDtlsTimeout (seconds : Z)
| SetDtlsMtu (mtu : Z)
| SetSessionMax (n : Z) (alloc : bool)
| CoapStart (port : Z) (libcoap : bool)
| SetCallback (cb : callback) (present : bool).

(** est_server.c:3346-3373; AUTH_BASIC 1, AUTH_DIGEST 2, AUTH_TOKEN 3. *)
Definition est_server_set_auth_mode (m : Z) (fips : bool) (c : ctx) : est_error * ctx :=
  if m =? 2 then if fips then (EST_ERR_BAD_MODE, c) else (EST_ERR_NONE, set_auth_mode AUTH_DIGEST c)
  else if m =? 1 then (EST_ERR_NONE, set_auth_mode AUTH_BASIC c)
  else if m =? 3 then (EST_ERR_NONE, set_auth_mode AUTH_TOKEN c)
  else (EST_ERR_BAD_MODE, c).

(** est_server.c:3679-3718, with 911-949 inlined; the default password is
    "cisco".  ECA_CSR_CHECK_OFF is 0, _ON 1. *)
Definition est_server_enable_enhanced_cert_auth (nid : Z) (pwd : option bytes) (flag : Z) (c : ctx) : est_error * ctx :=
  if x_eca c then (EST_ERR_ALREADY_ENABLED, c)
  else
    let c1 := set_local_nid nid c in
    let p := match pwd with Some p => p | None => str "cisco" end in
    if 255 <? Z.min (len p) 256 then (EST_ERR_INVALID_PARAMETERS, c1)
    else
      let c2 := set_pwd p c1 in
      if (flag =? 0) || (flag =? 1) then (EST_ERR_NONE, set_eca true (set_csr_check (flag =? 1) c2))
      else (EST_ERR_INVALID_PARAMETERS, c2).

(** est_enhcd_cert_auth.c:48-65: the first slot without truststore. *)
Fixpoint next_slot (l : list slot) : option nat :=
  match l with
  | [] => None
  | s :: r => match sl_store s with None => Some O | Some _ => option_map S (next_slot r) end
  end.
(** est_enhcd_cert_auth.c:81-133 est_load_enhcd_cert_auth_manufacturer.  A full
    list is no error. *)
Definition est_load_manufacturer (nid : Z) (certs : bytes) (alloc_store : bool) (load : est_error) (alloc_ctx : bool) (l : list slot)
  : est_error * list slot :=
  match next_slot l with
  | None => (EST_ERR_NONE, l)
  | Some i =>
    let old := nth i l no_slot in
    let put s := firstn i l ++ s :: skipn (S i) l in
    if negb alloc_store then (EST_ERR_MALLOC, put {| sl_store := None; sl_ctx := sl_ctx old; sl_nid := nid |})
    else if negb (err_eqb load EST_ERR_NONE) then (load, put {| sl_store := None; sl_ctx := sl_ctx old; sl_nid := nid |})
    else if negb alloc_ctx then (EST_ERR_MALLOC, put {| sl_store := None; sl_ctx := false; sl_nid := nid |})
    else (EST_ERR_NONE, put {| sl_store := Some certs; sl_ctx := true; sl_nid := nid |})
  end.
(** est_server.c:3740-3763, NUM_SUPPORTED_MFG is 4. *)
Definition est_server_add_mfg_info (name : bool) (nid : Z) (certs : option bytes) (certs_len : Z) (alloc_list alloc_store : bool)
    (load : est_error) (alloc_ctx : bool) (c : ctx) : est_error * ctx :=
  match certs with
  | Some ce =>
    if negb name || (certs_len =? 0) then (EST_ERR_INVALID_PARAMETERS, c)
    else if negb (x_eca c) then (EST_ERR_INVALID_PARAMETERS, c)
    else
      match (match x_mfgs c with Some l => Some l | None => if alloc_list then Some (repeat no_slot 4) else None end) with
      | None => (EST_ERR_MALLOC, c)
      | Some l =>
        let '(e, l') := est_load_manufacturer nid ce alloc_store load alloc_ctx l in (e, set_mfgs (Some l') c)
      end
  | None => (EST_ERR_INVALID_PARAMETERS, c)
  end.

(** est_server_coap.c:3132-3177 with est_coap_init_req_array, 489-507: the old
    array is freed first; if calloc fails its pointer is NULL and the entry
    count stays. *)
Definition est_server_set_dtls_session_max (n : Z) (alloc : bool) (c : ctx) : est_error * ctx :=
  if negb (x_port c =? 0) then (EST_ERR_SERVER_ALREADY_OPERATIONAL, c)
  else if (n <? 2) || (128 <? n) then (EST_ERR_INVALID_PARAMETERS, c)
  else
    let c1 := set_sessions n c in
    if alloc then (EST_ERR_NONE, set_req (Some n) n c1) else (EST_ERR_MALLOC, set_req None (x_req_max c) c1).

(** est_server_coap.c:3205-3291. *)
Definition est_server_coap_init_start (port : Z) (libcoap : bool) (c : ctx) : est_error * ctx :=
  match x_mode c with
  | EST_CLIENT => (EST_ERR_BAD_MODE, c)
  | _ =>
    if (port <? 0) || (65535 <? port) then (EST_ERR_INVALID_PORT_NUM, c)
    else
      let c1 := set_port port c in
      if negb libcoap then (EST_ERR_COAP_PROCESSING_ERROR, c1)
      else (EST_ERR_NONE, set_required 0 (set_transport EST_COAP c1))
  end.

(** est_server.c:3393-3590, 4223-4306, 329-343. *)
Definition est_set_callback (cb : callback) (present : bool) (c : ctx) : est_error * ctx :=
  let put := set_cbs (fun x => if cb_eq_dec x cb then present else x_cbs c x) c in
  match cb with
  | CbCsrattrs | CbCacerts => match x_mode c with EST_SERVER => (EST_ERR_NONE, put) | _ => (EST_ERR_BAD_MODE, c) end
  | CbVoucher | CbVoucherStatus | CbEnrollStatus => if present then (EST_ERR_NONE, put) else (EST_ERR_INVALID_PARAMETERS, c)
  | _ => (EST_ERR_NONE, put)
  end.

Section Step.
Variable G : bytes -> option header.
Variable bio : bool -> bytes -> Z -> bytes.

Definition step (o : op) (c : ctx) : res (est_error * ctx) :=
  match o with
  | SetAuthMode m fips => Ok (est_server_set_auth_mode m fips c)
  | SetHttpAuthRequired r => Ok (EST_ERR_NONE, set_required r c)                             (* est_server.c:3602-3612 *)
  | EnableEca nid pwd flag => Ok (est_server_enable_enhanced_cert_auth nid pwd flag c)
  | AddMfg name nid certs n a1 a2 e a3 => Ok (est_server_add_mfg_info name nid certs n a1 a2 e a3 c)
  | DisableEca =>                                                                          (* 3785-3800 *)
    if x_eca c then Ok (EST_ERR_NONE, set_eca false (set_mfgs None c)) else Ok (EST_ERR_ALREADY_DISABLED, c)
  | EnableSrp cb => if cb then Ok (EST_ERR_NONE, set_srp true c) else Ok (EST_ERR_INVALID_PARAMETERS, c)   (* 3837-3853 *)
  | EnablePop => Ok (EST_ERR_NONE, set_pop true c)                                           (* 3878-3887 *)
  | DisablePop => Ok (EST_ERR_NONE, set_pop false c)                                         (* 3900-3909 *)
  | SetRetryPeriod n =>                                                                    (* 3927-3948 *)
    if 172800 <? n then Ok (EST_ERR_INVALID_PARAMETERS, c)
    else if n <? 60 then Ok (EST_ERR_INVALID_PARAMETERS, c) else Ok (EST_ERR_NONE, set_retry n c)
  | SetCurve nid => if nid <=? 0 then Ok (EST_ERR_INVALID_PARAMETERS, c) else Ok (EST_ERR_NONE, set_curve nid c) (* 3971-3984 *)
  | SetDh parms dup => if parms then Ok (EST_ERR_NONE, set_dh dup c) else Ok (EST_ERR_INVALID_PARAMETERS, c)     (* 4006-4018 *)
  | InitCsrattrs attrs =>                                                                  (* 4042-4132 *)
    match x_mode c with
    | EST_SERVER => ' (e, a) <- est_server_init_csrattrs G bio (x_pop c) attrs ;; Ok (e, set_csrattrs a c)
    | _ => Ok (EST_ERR_BAD_MODE, c)
    end
  | EnforceCsrattrs => Ok (EST_ERR_NONE, set_enforce true c)                                 (* 4166-4174 *)
  | SetReadTimeout n =>                                                                    (* 4189-4204 *)
    if (n <? 1) || (3600 <? n) then Ok (EST_ERR_INVALID_PARAMETERS, c) else Ok (EST_ERR_NONE, set_read_timeout n c)
  | SetBrskiRetryPeriod n =>                                                               (* 4325-4346 *)
    if 70 <? n then Ok (EST_ERR_INVALID_PARAMETERS, c)
    else if n <? 1 then Ok (EST_ERR_INVALID_PARAMETERS, c) else Ok (EST_ERR_NONE, set_brski_retry n c)
  | SetDtlsTimeout n =>                                                                    (* est_server_coap.c:3025-3053 *)
    if negb (n =? 0) && ((n <? 2) || (60 <? n)) then Ok (EST_ERR_INVALID_PARAMETERS, c) else Ok (EST_ERR_NONE, set_dtls_timer n c)
  | SetDtlsMtu n =>                                                                        (* est_server_coap.c:3076-3104 *)
    if negb (n =? 0) && ((n <? 256) || (1152 <? n)) then Ok (EST_ERR_INVALID_PARAMETERS, c) else Ok (EST_ERR_NONE, set_mtu n c)
  | SetSessionMax n alloc => Ok (est_server_set_dtls_session_max n alloc c)
  | CoapStart port libcoap => Ok (est_server_coap_init_start port libcoap c)
  | SetCallback cb present => Ok (est_set_callback cb present c)
  end.
(** Without a context every call fails. *)
Definition call (o : op) (c : option ctx) : res (est_error * option ctx) :=
  match c with
  | Some c => ' (e, c') <- step o c ;; Ok (e, Some c')
  | None => Ok (match o with AddMfg _ _ _ _ _ _ _ _ => EST_ERR_INVALID_PARAMETERS | _ => EST_ERR_NO_CTX end, None)
  end.
(** A history: the calls with their results, and the context afterwards. *)
Fixpoint calls (os : list op) (c : ctx) : res (list (op * est_error) * ctx) :=
  match os with
  | [] => Ok ([], c)
  | o :: r => ' (e, c1) <- step o c ;; ' (h, c2) <- calls r c1 ;; Ok ((o, e) :: h, c2)
  end.
End Step.

(** The part of the context the server uses for a request (Model/Server.v).
    [tinit], [tverify]: OpenSSL's chain verification against a truststore. *)
Definition server_config {cert : Type} (tinit : bytes -> cert -> bool) (tverify : bytes -> cert -> Z)
    (ev_endpoint ev_req ev_rsp ev_auth : bool) (c : ctx) : @config cert :=
  {| c_transport := x_transport c; c_auth_mode := x_auth_mode c; c_realm := x_realm c;
     c_http_required := x_required c =? 1; c_eca := x_eca c; c_eca_csr_check := x_csr_check c;
     c_mfgs := option_map (map (fun s => {| m_usable := match sl_store s with Some _ => sl_ctx s | None => false end;
                 m_nid := sl_nid s;
                 m_init := match sl_store s with Some t => tinit t | None => fun _ => false end;
                 m_verify := match sl_store s with Some t => tverify t | None => fun _ => 0 end |})) (x_mfgs c);
     c_local_nid := x_local_nid c; c_eca_pwd := x_pwd c; c_pop := x_pop c; c_enforce := x_enforce c;
     c_csrattrs := x_csrattrs c; c_cacerts := x_cacerts c; c_retry := x_retry c; c_brski_retry := x_brski_retry c;
     c_ev_endpoint := ev_endpoint; c_ev_req := ev_req; c_ev_rsp := ev_rsp; c_ev_auth := ev_auth |}.
