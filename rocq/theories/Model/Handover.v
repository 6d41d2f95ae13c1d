(** est_client.c: how the CA certificate of a BRSKI voucher reaches the
    application, through est_client_brski_get_voucher and
    est_client_brski_copy_cacert. *)
From Coq Require Import ZArith List Bool.
From Verif Require Import Base Model.CLib Model.EstErr Model.AuthHdr Model.Voucher.
Import ListNotations.
Open Scope Z_scope.

(** est_locl.h: est_client_initialized, brski_mode == BRSKI_ENABLED and the rest
    of the context, as far as vouchers go. *)
Record bctx := { b_initialized : bool; b_brski : bool; b_v : vctx }.
Definition with_v (c : bctx) (v : vctx) : bctx := {| b_initialized := b_initialized c; b_brski := b_brski c; b_v := v |}.

(** memset and memcpy of [n] octets at the start of a block; safe_mem_stub.c:53-69
    memzero_s, memcpy_s with equal sizes. *)
Definition put_at_start (block src : bytes) : res bytes :=
  if len src <=? len block then Ok (src ++ skipn (length src) block) else UB.

(** est_client.c:6080-6118 est_client_brski_copy_cacert.  [cacert]: the
    application's memory from the pointer on ([None]: NULL). *)
Definition est_client_brski_copy_cacert (ctx : option bctx) (cacert : option bytes) : res (est_error * option bytes * option bctx) :=
  match ctx with
  | None => Ok (EST_ERR_NO_CTX, cacert, ctx)
  | Some c =>
    if negb (b_initialized c) then Ok (EST_ERR_CLIENT_NOT_INITIALIZED, cacert, ctx)
    else if negb (b_brski c) then Ok (EST_ERR_INVALID_PARAMETERS, cacert, ctx)
    else
      match cacert with
      | None => Ok (EST_ERR_INVALID_PARAMETERS, cacert, ctx)
      | Some m =>
        match v_cacert (b_v c) with
        | None => Ok (EST_ERR_NO_CERT, cacert, ctx)
        | Some stored =>
          m <- put_at_start m (repeat 0 (length stored)) ;;
          m <- put_at_start m stored ;;
          stored' <- put_at_start stored (repeat 0 (length stored)) ;;
          let v := b_v c in
          Ok (EST_ERR_NONE, Some m,
              Some (with_v c {| v_mode := v_mode v; v_delay := v_delay v; v_voucher := v_voucher v; v_cacert := Some stored' |}))
        end
      end
  end.

Section Handover.
(** OpenSSL's part, as in Model/Voucher.v. *)
Variable pkcs7 : Type.
Variable d2i_PKCS7 : bytes -> option pkcs7.
Variable PKCS7_verify : pkcs7 -> Z.
Variable pkcs7_data : pkcs7 -> bytes.
Variable verify_cacert_resp : bytes -> est_error * bytes.
Variable trust_store : bool.

(** What a call of est_client_brski_get_voucher finds: the subject's serial
    number, the three buffers before, RAND_bytes twice, the exchanges to come. *)
Record asking := { a_serial : option bytes; a_nb : bytes; a_sb : bytes; a_cb : bytes; a_nonce1 : option bytes; a_nonce2 : option bytes; a_xs : list exchange }.

(** est_client.c:5958-6063 est_client_brski_get_voucher with its checks;
    [cacert_len]: what the pointer shows ([None]: NULL). *)
Definition est_client_brski_get_voucher_api (ctx : option bctx) (a : asking) (cacert_len : option Z) : res (est_error * option Z * option bctx * list step) :=
  match ctx with
  | None => Ok (EST_ERR_NO_CTX, cacert_len, ctx, [])
  | Some c =>
    if negb (b_initialized c) then Ok (EST_ERR_CLIENT_NOT_INITIALIZED, cacert_len, ctx, [])
    else if negb (b_brski c) then Ok (EST_ERR_INVALID_PARAMETERS, cacert_len, ctx, [])
    else
      match cacert_len with
      | None => Ok (EST_ERR_INVALID_PARAMETERS, cacert_len, ctx, [])
      | Some l =>
        '(rv, l', v, tr) <- est_client_brski_get_voucher pkcs7 d2i_PKCS7 PKCS7_verify pkcs7_data verify_cacert_resp trust_store
                              (a_serial a) (a_nb a) (a_sb a) (a_cb a) (b_v c) (a_nonce1 a) (a_nonce2 a) (a_xs a) l ;;
        Ok (rv, Some l', Some (with_v c v), tr)
      end
  end.

(** An application's calls and what it sees of each. *)
Inductive call := Ask (a : asking) (cacert_len : option Z) | Hand (cacert : option bytes).
Inductive event :=
| Asked (e : est_error) (reported : option Z) (did : list step)
| Handed (e : est_error) (before after : option bytes).
Definition do_call (ctx : option bctx) (k : call) : res (option bctx * event) :=
  match k with
  | Ask a l => '(e, l', ctx', tr) <- est_client_brski_get_voucher_api ctx a l ;; Ok (ctx', Asked e l' tr)
  | Hand m => '(e, m', ctx') <- est_client_brski_copy_cacert ctx m ;; Ok (ctx', Handed e m m')
  end.
Fixpoint do_calls (ctx : option bctx) (ks : list call) : res (option bctx * list event) :=
  match ks with
  | [] => Ok (ctx, [])
  | k :: ks =>
    '(ctx, e) <- do_call ctx k ;;
    '(ctx, es) <- do_calls ctx ks ;;
    Ok (ctx, e :: es)
  end.
End Handover.
