(** What an application asks the client context after an operation: the delay
    the server wants and the last HTTP status (est_client.c). *)
From Coq Require Import ZArith List Bool.
From Verif Require Import Base Model.EstErr Model.ClientHttp Model.Client.
Import ListNotations.
Open Scope Z_scope.

(** est_client.c:4875-4893 est_client_copy_retry_after.  retry_after_date stays 0:
    RETRY_AFTER_DELAY_TIME_SUPPORT is not defined. *)
Definition est_client_copy_retry_after : M (est_error * option Z) :=
  c <~ get ;;
  if negb (c_init c) then ret (EST_ERR_CLIENT_NOT_INITIALIZED, None)
  else upd (fun c => put_http (set_delay 0 (c_http c)) c) >> ret (EST_ERR_NONE, Some (k_delay (c_http c))).
(** est_client.c:4995-5002 est_client_get_last_http_status *)
Definition est_client_get_last_http_status : M Z := c <~ get ;; ret (k_status (c_http c)).

(** The interface with these two calls. *)
Inductive ask := Do (x : call) | RetryAfter | LastStatus.
Inductive answer := Done (e : est_error) (out : option bytes) | Delay (e : est_error) (n : option Z) | Status (n : Z).
Definition perform_ask (X : ext) (a : ask) : M answer :=
  match a with
  | Do x => ' (e, o) <~ perform X x ;; ret (Done e o)
  | RetryAfter => ' (e, n) <~ est_client_copy_retry_after ;; ret (Delay e n)
  | LastStatus => n <~ est_client_get_last_http_status ;; ret (Status n)
  end.
