(** The BRSKI status messages of a client: est_client.c:6131-6567, on top of
    Model/Client.v. *)
From Coq Require Import String ZArith List Bool.
From Verif Require Import Base Spec.Http Model.CLib Model.Codec Model.EstErr Model.HttpServer Model.Uri Model.AuthHdr Model.ClientHttp Model.Client.
Import ListNotations.
Open Scope Z_scope.

(** est.h:347-350 *)
Definition EST_BRSKI_MAX_SUBJ_KEY_ID_LEN : Z := 24.
Definition EST_BRSKI_MAX_REASON_LEN : Z := 255.
Definition EST_BRSKI_MAX_STATUS_LEN : Z := 383.
Definition BRSKI_VERSION : bytes := str "1".

(** safe_str_stub.c:423-428 strnlen_s of a string at the start of a readable
    block, which ends with the block; reading on is [UB]. *)
Fixpoint strnlen_s (blk : bytes) (smax : nat) : res Z :=
  match smax, blk with
  | O, _ => Ok 0
  | S _, [] => UB
  | S n, c :: t => if c =? 0 then Ok 0 else k <- strnlen_s t n ;; Ok (k + 1)
  end.

Section Status.
Variable X : ext.

(** send_status, 6196-6203: the operation's path *)
Definition status_name (op : operation) : bytes :=
  match op with OP_BRSKI_VOUCHER_STATUS => str "voucher_status" | _ => str "enrollstatus" end.
(** est_client.c:6131-6162 est_client_brski_build_status_header.  The URI given
    for Digest is that of the voucher request. *)
Definition est_client_brski_build_status_header (c : client) (t : session) (n : Z) (uri : bytes) : res bytes :=
  add_auth X c t
    (snprintf_str (request_start (str "POST") uri c
                   ++ str "Content-Type: application/json" ++ CRLF
                   ++ str "Content-Length: " ++ print_int n ++ CRLF) REQ_TOTAL)
    (str "/.well-known/est/requestvoucher").

(** est_client.c:6174-6262 send_status; malloc does not fail.  A header that
    could not be made (RAND_bytes) is not noticed. *)
Definition send_status (op : operation) (status : bytes) (t : session) : M est_error :=
  c <~ get ;;
  h <~ lift (est_client_brski_build_status_header c t (len status) (status_name op)) ;;
  r <~ lift (complete h status) ;;
  w <~ exchange r t ;;
  if negb w then ret EST_ERR_SSL_WRITE
  else ' (rv, _) <~ get_response op t ;; ret rv.

(** 6334-6395, 6503-6564: connect and send, if need be twice. *)
Definition deliver_status (op : operation) (status : bytes) : M est_error :=
  ' (rv, normal) <~ twice X false (send_status op status) ;;
  (if normal then upd (fun c => put_http (set_mode AUTH_NONE (c_http c)) c) else ret tt) >>
  ret rv.

(** est.h:352-355, 6309-6316: EST_BRSKI_STATUS_SUCCESS is 1, EST_BRSKI_STATUS_FAIL 2. *)
Definition status_str (status : Z) : option bytes :=
  if status =? 1 then Some (str "true") else if status =? 2 then Some (str "false") else None.

Definition QUOTE : bytes := [34].

(** est_client.c:6289-6396 est_client_brski_send_voucher_status.  [mode]: BRSKI
    is enabled in the context; [reason]: the characters of the string, None for
    NULL. *)
Definition est_client_brski_send_voucher_status (mode : bool) (status : Z) (reason : option bytes) : M est_error :=
  c <~ get ;;
  if negb (c_init c) then ret EST_ERR_CLIENT_NOT_INITIALIZED
  else if negb mode then ret EST_ERR_INVALID_PARAMETERS
  else match status_str status with
  | None => ret EST_ERR_INVALID_PARAMETERS
  | Some st =>
    match reason with
    | None => ret EST_ERR_INVALID_PARAMETERS
    | Some r =>
      if hd 0 r =? 10 then ret EST_ERR_INVALID_PARAMETERS
      else
        n <~ lift (strnlen_s (r ++ [0]) (Z.to_nat (EST_BRSKI_MAX_REASON_LEN + 1))) ;;
        if EST_BRSKI_MAX_REASON_LEN <? n then ret EST_ERR_INVALID_PARAMETERS
        else
          let text := snprintf_str
            (str "{" ++ CRLF ++ QUOTE ++ str "version" ++ QUOTE ++ str ":" ++ QUOTE ++ BRSKI_VERSION ++ QUOTE ++ str "," ++ CRLF
             ++ QUOTE ++ str "Status" ++ QUOTE ++ str ":" ++ st ++ str "," ++ CRLF
             ++ QUOTE ++ str "Reason" ++ QUOTE ++ str ":" ++ QUOTE ++ r ++ QUOTE ++ CRLF ++ str "}") EST_BRSKI_MAX_STATUS_LEN in
          deliver_status OP_BRSKI_VOUCHER_STATUS text
    end
  end.

(** est_client.c:6420-6567 est_client_brski_send_enroll_status.  [ski]: the
    readable memory from subject_key_id on.  A NULL reason is printed with %s:
    [UB]. *)
Definition est_client_brski_send_enroll_status (mode : bool) (status : Z) (reason : option bytes) (ski : option bytes) : M est_error :=
  c <~ get ;;
  if negb (c_init c) then ret EST_ERR_CLIENT_NOT_INITIALIZED
  else if negb mode then ret EST_ERR_INVALID_PARAMETERS
  else match status_str status with
  | None => ret EST_ERR_INVALID_PARAMETERS
  | Some st =>
    n <~ lift (match reason with Some r => strnlen_s (r ++ [0]) (Z.to_nat (EST_BRSKI_MAX_REASON_LEN + 1)) | None => Ok 0 end) ;;
    if EST_BRSKI_MAX_REASON_LEN <? n then ret EST_ERR_INVALID_PARAMETERS
    else if (status =? 2) && match reason with None => true | Some _ => false end then ret EST_ERR_INVALID_PARAMETERS
    else match ski with
    | None => ret EST_ERR_INVALID_PARAMETERS
    | Some blk =>
      first <~ lift (rd blk 0) ;;
      if first =? 10 then ret EST_ERR_INVALID_PARAMETERS
      else
        k <~ lift (strnlen_s blk (Z.to_nat (EST_BRSKI_MAX_SUBJ_KEY_ID_LEN + 1))) ;;
        if EST_BRSKI_MAX_SUBJ_KEY_ID_LEN <? k then ret EST_ERR_INVALID_PARAMETERS
        else
          ' (n64, b64) <~ lift (est_base64_encode (firstn (Z.to_nat k) blk) (repeat 0 (Z.to_nat (EST_BRSKI_MAX_SUBJ_KEY_ID_LEN * 2)))
                                  (EST_BRSKI_MAX_SUBJ_KEY_ID_LEN * 2) false) ;;
          if n64 =? 0 then ret EST_ERR_INVALID_PARAMETERS
          else
            r <~ lift (match reason with Some r => Ok r | None => UB end) ;;
            s64 <~ lift (cstr b64) ;;
            let text := snprintf_str
              (str "{" ++ CRLF ++ QUOTE ++ str "version" ++ QUOTE ++ str ":" ++ QUOTE ++ BRSKI_VERSION ++ QUOTE ++ str "," ++ CRLF
               ++ QUOTE ++ str "Status" ++ QUOTE ++ str ":" ++ st ++ str "," ++ CRLF
               ++ QUOTE ++ str "Reason" ++ QUOTE ++ str ":" ++ QUOTE ++ r ++ QUOTE ++ str "," ++ CRLF
               ++ QUOTE ++ str "SubjectKeyIdentifier" ++ QUOTE ++ str ":" ++ QUOTE ++ s64 ++ QUOTE ++ CRLF ++ str "}") EST_BRSKI_MAX_STATUS_LEN in
            deliver_status OP_BRSKI_ENROLL_STATUS text
    end
  end.
End Status.
