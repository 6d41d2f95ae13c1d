(** What an application sees of the CA certificates of vouchers. *)
From Coq Require Import String ZArith List Bool.
From Verif Require Import Base Model.EstErr Model.Jsmn Model.Voucher Model.Handover Spec.Voucher.
Import ListNotations.
Open Scope Z_scope.

(** A voucher was asked for, with success. *)
Definition granted (e : event) : Prop := match e with Asked EST_ERR_NONE _ _ => True | _ => False end.
(** The certificate was handed over, with success. *)
Definition handed (e : event) : Prop := match e with Handed EST_ERR_NONE _ _ => True | _ => False end.
Definition asked (e : event) : Prop := match e with Asked _ _ _ => True | _ => False end.

(** [before] overwritten at its start by [s]. *)
Definition overwritten (before s : bytes) : bytes := s ++ skipn (length s) before.

(** A call uses the buffers the library has, a C string for the serial number
    and 16 random octets. *)
Definition usual (k : call) : Prop :=
  match k with
  | Ask a _ => (forall s, a_serial a = Some s -> no_nul s) /\ len (a_nb a) = 34 /\ len (a_sb a) = 66 /\ len (a_cb a) = 8192
      /\ (forall r, a_nonce1 a = Some r -> all_bytes r /\ len r = 16) /\ (forall r, a_nonce2 a = Some r -> all_bytes r /\ len r = 16)
  | Hand _ => True
  end.

(** The last voucher answered to a call that did [did] pins the certificates
    [t]: [t] is what checking the text after "pinned-domain-cert" left. *)
Definition pins {pkcs7} (d2i_PKCS7 : bytes -> option pkcs7) (PKCS7_verify : pkcs7 -> Z) (pkcs7_data : pkcs7 -> bytes)
    (verify_cacert_resp : bytes -> est_error * bytes) (did : list step) (t : bytes) : Prop :=
  exists did0 nonce x p q cert,
    did = did0 ++ [Sent nonce x] /\ x_reply x = EST_ERR_NONE
    /\ d2i_PKCS7 (x_voucher x) = Some p /\ PKCS7_verify p <> 0
    /\ jsmn_parse jsmn_init (pkcs7_data p) (len (pkcs7_data p)) (Some 100) = Ok (len (p_toks q), q)
    /\ said (pkcs7_data p) (str "pinned-domain-cert") (tl (p_toks q)) = Some cert
    /\ verify_cacert_resp cert = (EST_ERR_NONE, t).
