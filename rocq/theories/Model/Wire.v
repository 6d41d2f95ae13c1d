(** Reading from and writing to a client's connection, with the results of
    poll, SSL_read and SSL_write one by one: est_server_http.c:469-663 and the
    tail of est_server.c:187-226.  Model/HttpServer.v and Model/Server.v see
    only what these functions return. *)
From Coq Require Import String ZArith List Bool.
From Verif Require Import Base Model.CLib Model.EstErr.
Import ListNotations.
Open Scope Z_scope.

(** ** Writing *)
(** What a call has done when the results given are used up, or when it
    returned; [wire]: what the connection took. *)
Inductive written := Writing (wire : bytes) | Wrote (sent : Z) (wire : bytes).

(** est_server_http.c:469-500 push over TLS: [rs] are the results of SSL_write,
    which is asked to send the rest of [buf], at most INT_MAX octets, and takes
    as many of them as it says. *)
Fixpoint push_from (rs : list Z) (buf : bytes) (sent : Z) (wire : bytes) : written :=
  if sent <? len buf then
    let k := if INT_MAX <? len buf - sent then INT_MAX else len buf - sent in
    match rs with
    | [] => Writing wire
    | n :: rs =>
      if n <? 0 then Wrote sent wire
      else push_from rs buf (sent + n) (wire ++ firstn (Z.to_nat n) (firstn (Z.to_nat k) (skipn (Z.to_nat sent) buf)))
    end
  else Wrote sent wire.
Definition push (rs : list Z) (buf : bytes) : written := push_from rs buf 0 [].

(** (int) of an int64_t *)
Definition to_int (n : Z) : Z := (n + 2 ^ 31) mod 2 ^ 32 - 2 ^ 31.
(** est_server_http.c:656-663 mg_write *)
Definition mg_write (rs : list Z) (buf : bytes) : written :=
  match push rs buf with Wrote sent wire => Wrote (to_int sent) wire | w => w end.

(** The answers of the server: a header and a body, est_server.c:211-224
    est_handle_cacerts, and in the same way 1818-1834 est_handle_simple_enroll,
    2458-2469 est_brski_handle_voucher_req, est_server_http.c:1875-1889
    est_send_csrattr_data.  [None]: the results are used up. *)
Definition send_answer (rs1 rs2 : list Z) (hdr body : bytes) : option est_error * bytes :=
  match mg_write rs1 hdr with
  | Writing w => (None, w)
  | Wrote n w =>
    if n =? 0 then (Some EST_ERR_HTTP_WRITE, w)
    else
      match mg_write rs2 body with
      | Writing w2 => (None, w ++ w2)
      | Wrote n2 w2 => (Some (if n2 =? 0 then EST_ERR_HTTP_WRITE else EST_ERR_NONE), w ++ w2)
      end
  end.

(** ** Waiting *)
(** One round: what poll returns after at most 250 ms, whether a failure was an
    interruption by a signal, what SSL_pending returns, and whether the server
    has been told to stop by then. *)
Record round := { p_result : Z; p_eintr : bool; p_pending : Z; p_stop : bool }.
(** [Over readable must_close rounds]: the wait ends after so many rounds. *)
Inductive waited := Waiting | Over (readable must_close : bool) (rounds : nat).

Definition MSEC_POLL_WAIT_TIME : Z := 250.
(** est_server_http.c:513-556 wait_until_socket_is_readable, TLS connection.
    total_wait_time and read_timeout are unsigned. *)
Fixpoint wait_from (read_timeout total : Z) (n : nat) (ps : list round) : waited :=
  match ps with
  | [] => Waiting
  | p :: ps =>
    let total := (total + MSEC_POLL_WAIT_TIME) mod 2 ^ 32 in
    let result := if p_result p =? 0 then p_pending p else p_result p in
    let times_up := (read_timeout <? total) && (result =? 0) in
    let result' := if times_up then -1 else result in
    if ((result' =? 0) || (result' <? 0) && p_eintr p) && negb (p_stop p) && negb times_up
    then wait_from read_timeout total (S n) ps
    else Over (negb (p_stop p || (result' <? 0))) times_up (S n)
  end.
Definition wait_until_socket_is_readable (timeout : Z) (ps : list round) : waited :=
  wait_from ((timeout * 1000) mod 2 ^ 32) 0 0 ps.

(** ** Reading *)
(** SSL_read and SSL_get_error: data, SSL_ERROR_WANT_READ, or a failure. *)
Inductive tls_read := ReadData (d : bytes) | WantRead | ReadFailed.
(** One call of pull (est_server_http.c:560-600): the rounds of its wait and what
    SSL_read does if it comes to that; [p_stop] of the last round is also what
    stop_flag is at the end. *)
Inductive reading := Reading (got : bytes) (rounds : nat) | Got (got : bytes) (rounds : nat) | GaveUp (must_close : bool) (rounds : nat).
(** est_server_http.c:635-651, the loop of mg_read: [n] octets are still
    expected, SSL_read gives no more than that. *)
Fixpoint read_from (timeout : Z) (n : Z) (ps : list (list round * tls_read)) (got : bytes) (rounds : nat) : reading :=
  if n <=? 0 then Got got rounds
  else
    match ps with
    | [] => Reading got rounds
    | (w, r) :: ps =>
      match wait_until_socket_is_readable timeout w with
      | Waiting => Reading got (rounds + length w)
      | Over false mc k => GaveUp mc (rounds + k)
      | Over true _ k =>
        match r with
        | ReadFailed => GaveUp false (rounds + k)
        | WantRead => read_from timeout n ps got (rounds + k)
        | ReadData d => let d := firstn (Z.to_nat n) d in read_from timeout (n - len d) ps (got ++ d) (rounds + k)
        end
      end
    end.
Definition read_body (timeout n : Z) (ps : list (list round * tls_read)) : reading := read_from timeout n ps [] 0.
