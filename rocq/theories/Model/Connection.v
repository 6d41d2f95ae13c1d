(** Sockets, TLS objects and session references of the client: what is opened
    and what is released (est_client.c, est_client_proxy.c, est_proxy.c).  The
    content of requests and responses is Model/Client.v's; here an exchange is only
    its outcome.  Not modelled: connecting through an HTTP proxy (libcurl), malloc
    failure, a close() that fails on an open descriptor. *)
From Coq Require Import ZArith List Bool.
From Verif Require Import Base Model.EstErr.
Import ListNotations.
Open Scope Z_scope.

(** What the process holds: open descriptors (the application's too), TLS objects,
    references to TLS sessions; and the addresses connect() was called with. *)
Record world := { w_open : list Z; w_tls : list Z; w_sess : list Z; w_tried : list Z }.
(** The parts of EST_CTX: tcw_sock.sock_fd, tcw_sock_connected, sess. *)
Record conn := { k_fd : Z; k_connected : bool; k_sess : option Z }.
Record st := { s_w : world; s_k : conn }.

Definition set_open l s := {| s_w := {| w_open := l; w_tls := w_tls (s_w s); w_sess := w_sess (s_w s); w_tried := w_tried (s_w s) |}; s_k := s_k s |}.
Definition set_tls l s := {| s_w := {| w_open := w_open (s_w s); w_tls := l; w_sess := w_sess (s_w s); w_tried := w_tried (s_w s) |}; s_k := s_k s |}.
Definition set_sess l k s := {| s_w := {| w_open := w_open (s_w s); w_tls := w_tls (s_w s); w_sess := l; w_tried := w_tried (s_w s) |};
                               s_k := {| k_fd := k_fd (s_k s); k_connected := k_connected (s_k s); k_sess := k |} |}.
Definition add_tried a s := {| s_w := {| w_open := w_open (s_w s); w_tls := w_tls (s_w s); w_sess := w_sess (s_w s); w_tried := w_tried (s_w s) ++ [a] |}; s_k := s_k s |}.
Definition set_fd fd s := {| s_w := s_w s; s_k := {| k_fd := fd; k_connected := k_connected (s_k s); k_sess := k_sess (s_k s) |} |}.
Definition set_connected b s := {| s_w := s_w s; s_k := {| k_fd := k_fd (s_k s); k_connected := b; k_sess := k_sess (s_k s) |} |}.

(** What happens at one address: socket() fails, connect() fails, or neither. *)
Inductive reply := NoSocket | NoConnect | Connects.
(** The environment of one connection attempt: getaddrinfo's result ([None]: it
    fails), and whether setsockopt, BIO_new_socket, SSL_new, SSL_connect and the
    check of the host name succeed; the session the handshake yields. *)
Record dial := {
  d_addrs : option (list (Z * reply));
  d_keepalive : bool; d_bio : bool; d_ssl : bool; d_tls : bool; d_name : bool;
  d_session : Z
}.

Inductive tcw_err := TCW_OK | TCW_ERR_RESOLV | TCW_ERR_SOCKET | TCW_ERR_CONNECT.

Section Connection.
(** The operating system's and OpenSSL's choice of a new descriptor or object,
    given those in use. *)
Variable pick : list Z -> Z.

Definition close_fd (fd : Z) (s : st) : st := set_open (remove Z.eq_dec fd (w_open (s_w s))) s.
Definition SSL_free (x : option Z) (s : st) : st :=
  match x with Some i => set_tls (remove Z.eq_dec i (w_tls (s_w s))) s | None => s end.

(** est_client_proxy.c:190-217: the loop over the addresses; [fd] is [None] before
    its first assignment. *)
Fixpoint try_addresses (l : list (Z * reply)) (fd : option Z) (ret : tcw_err) (s : st) : option Z * tcw_err * st :=
  match l with
  | [] => (fd, ret, s)
  | (a, NoSocket) :: r => try_addresses r (Some (-1)) TCW_ERR_SOCKET s
  | (a, NoConnect) :: r =>
    let n := pick (w_open (s_w s)) in
    let s := add_tried a (set_open (n :: w_open (s_w s)) s) in
    try_addresses r (Some (-1)) TCW_ERR_CONNECT (close_fd n s)
  | (a, Connects) :: r =>
    let n := pick (w_open (s_w s)) in
    (Some n, TCW_OK, add_tried a (set_open (n :: w_open (s_w s)) s))
  end.
(** est_client_proxy.c:144-230 tcw_direct_connect and 564-597 tcw_connect.
    getaddrinfo gives at least one address; with none fd would be read
    uninitialised. *)
Definition tcw_connect (addrs : option (list (Z * reply))) (s : st) : res (tcw_err * st) :=
  let s := set_fd (-1) s in
  match addrs with
  | None => Ok (TCW_ERR_RESOLV, s)
  | Some l =>
    let '(fd, ret, s) := try_addresses l None TCW_OK s in
    match fd with
    | None => UB
    | Some fd => Ok (ret, if 0 <=? fd then set_fd fd s else s)
    end
  end.
(** est_client_proxy.c:115-140 tcw_direct_close, 102-112 fd_is_valid *)
Definition tcw_close (s : st) : st :=
  let fd := k_fd (s_k s) in
  let s := if in_dec Z.eq_dec fd (w_open (s_w s)) then close_fd fd s else s in
  set_fd (-1) s.

(** est_client.c:2916-2950 est_client_disconnect: the TLS object and its session *)
Definition est_client_disconnect (ssl : option Z) (session : Z) (s : st) : st * option Z :=
  match ssl with
  | None => (s, None)
  | Some i =>
    let s := match k_sess (s_k s) with
             | None => set_sess (session :: w_sess (s_w s)) (Some session) s
             | Some old => if session =? old then s else set_sess (session :: w_sess (s_w s)) (Some session) s
             end in
    let s := SSL_free (Some i) s in
    (if k_connected (s_k s) then set_connected false (tcw_close s) else s, None)
  end.

(** est_client.c:2768-2907 est_client_connect: the error and the caller's ssl
    variable, which is [ssl] before. *)
Definition est_client_connect (d : dial) (ssl : option Z) (s : st) : res (est_error * option Z * st) :=
  ' (e, s) <- tcw_connect (d_addrs d) s ;;
  match e with
  | TCW_ERR_RESOLV => Ok (EST_ERR_IP_GETADDR, ssl, s)
  | TCW_ERR_SOCKET | TCW_ERR_CONNECT => Ok (EST_ERR_IP_CONNECT, ssl, s)
  | TCW_OK =>
    if negb (d_keepalive d) then Ok (EST_ERR_IP_CONNECT, ssl, tcw_close s)
    else if negb (d_bio d) then Ok (EST_ERR_IP_CONNECT, ssl, tcw_close s)
    else if negb (d_ssl d) then Ok (EST_ERR_SSL_NEW, None, tcw_close s)
    else
      let i := pick (w_tls (s_w s)) in
      let s := set_tls (i :: w_tls (s_w s)) s in
      if negb (d_tls d) then Ok (EST_ERR_SSL_CONNECT, Some i, tcw_close s)
      else
        let s := set_connected true s in
        if d_name d then Ok (EST_ERR_NONE, Some i, s)
        else let '(s, ssl) := est_client_disconnect (Some i) (d_session d) s in Ok (EST_ERR_FQDN_MISMATCH, ssl, s)
  end.

(** ** The calls *)

(** est_client.c:3152-3228 est_client_enroll_internal, 3577-3640 est_client_reenroll,
    3644-3718 est_client_enroll_csr_internal, 6344-6398, 6513-6567 the BRSKI status
    calls: a second connection if the server asked for credentials the client can
    give ([again]) and FIPS mode does not forbid it ([blocked]). *)
Definition two_attempts (d1 : dial) (again blocked : bool) (d2 : dial) (s : st) : res st :=
  ' (e, ssl, s) <- est_client_connect d1 None s ;;
  match e with
  | EST_ERR_NONE =>
    let '(s, ssl) := est_client_disconnect ssl (d_session d1) s in
    if again && negb blocked then
      ' (e, ssl, s) <- est_client_connect d2 ssl s ;;
      match e with
      | EST_ERR_NONE => let '(s, ssl) := est_client_disconnect ssl (d_session d2) s in Ok (SSL_free ssl s)
      | _ => Ok (SSL_free ssl s)
      end
    else Ok (SSL_free ssl s)
  | _ => Ok (SSL_free ssl s)
  end.
(** est_client.c:3923-3963 est_client_get_cacerts, 4030-4130 est_client_get_csrattrs *)
Definition one_attempt (d : dial) (s : st) : res st :=
  ' (e, ssl, s) <- est_client_connect d None s ;;
  match e with
  | EST_ERR_NONE => let '(s, ssl) := est_client_disconnect ssl (d_session d) s in Ok (SSL_free ssl s)
  | _ => Ok (SSL_free ssl s)
  end.
(** est_proxy.c:453-480 est_proxy_send_enroll_request, 493-523
    est_proxy_send_keygen_request: nothing is freed when connecting fails. *)
Definition proxy_attempt (d : dial) (s : st) : res st :=
  ' (e, ssl, s) <- est_client_connect d None s ;;
  match e with
  | EST_ERR_NONE => let '(s, _) := est_client_disconnect ssl (d_session d) s in Ok s
  | _ => Ok s
  end.
(** est_client.c:5776-5940 est_client_brski_send_get_voucher: [ready]: RAND_bytes,
    time() and the server's certificate are there; [ready2]: the certificate of the
    second connection is. *)
Definition voucher_attempts (d1 : dial) (ready again blocked : bool) (d2 : dial) (ready2 : bool) (s : st) : res st :=
  ' (e, ssl, s) <- est_client_connect d1 None s ;;
  match e with
  | EST_ERR_NONE =>
    if negb ready then Ok s
    else
      let '(s, ssl) := est_client_disconnect ssl (d_session d1) s in
      if again && negb blocked then
        ' (e, ssl, s) <- est_client_connect d2 ssl s ;;
        match e with
        | EST_ERR_NONE =>
          if negb ready2 then Ok (SSL_free ssl s)
          else let '(s, ssl) := est_client_disconnect ssl (d_session d2) s in Ok (SSL_free ssl s)
        | _ => Ok (SSL_free ssl s)
        end
      else Ok (SSL_free ssl s)
  | _ => Ok (SSL_free ssl s)
  end.

Inductive call :=
| Operation (d1 : dial) (again blocked : bool) (d2 : dial)
| Fetch (d : dial)
| Relay (d : dial)
| Voucher (d1 : dial) (ready again blocked : bool) (d2 : dial) (ready2 : bool).
Definition perform (c : call) (s : st) : res st :=
  match c with
  | Operation d1 a b d2 => two_attempts d1 a b d2 s
  | Fetch d => one_attempt d s
  | Relay d => proxy_attempt d s
  | Voucher d1 r a b d2 r2 => voucher_attempts d1 r a b d2 r2 s
  end.
Fixpoint perform_all (l : list call) (s : st) : res st :=
  match l with [] => Ok s | c :: r => s <- perform c s ;; perform_all r s end.

(** est.c:808-825 est_destroy: the reference to the cached session *)
Fixpoint remove_one (x : Z) (l : list Z) : list Z :=
  match l with [] => [] | y :: r => if x =? y then r else y :: remove_one x r end.
Definition est_destroy (s : st) : st :=
  match k_sess (s_k s) with
  | Some x => set_sess (remove_one x (w_sess (s_w s))) None s
  | None => s
  end.
End Connection.
