(** The proxy's table of upstream client contexts (est_proxy.c:50-239). *)
From Coq Require Import ZArith List Bool.
From Verif Require Import Base Spec.Proxy.
Import ListNotations.
Open Scope Z_scope.

(** est_locl.h: INITIAL_PROXY_CLIENT_CTXS *)
Definition INITIAL_PROXY_CLIENT_CTXS : Z := 8.
Definition INT_MAX : Z := 2147483647.

(** est_locl.h: CLIENT_CTX_LU_NODE_T.  Client contexts (EST_CTX objects) are
    numbered in the order of their creation. *)
Record node := { threadid : Z; client_ctx : option nat }.
Definition zero_node : node := {| threadid := 0; client_ctx := None |}.

(** The process: est_proxy.c:50 the file-scope variable cur_max_ctx_array, the
    client_ctx_array of each proxy context, and the number of the next client
    context. *)
Record world := { cur_max : Z; arrays : list (list node); next : nat }.

(** est_proxy.c:57-71 bsearch_compare *)
Definition bsearch_compare (a b : node) : Z :=
  if threadid a >? threadid b then 1 else if threadid a <? threadid b then -1 else 0.

(** est_proxy.c:2221-2222, in est_proxy_init: the array of a new proxy.  malloc
    is taken to succeed, as the code does. *)
Definition est_proxy_init (w : world) : world :=
  {| cur_max := cur_max w; arrays := arrays w ++ [repeat zero_node (Z.to_nat (cur_max w))]; next := next w |}.
(** A process with [n] proxies *)
Fixpoint proxies (n : nat) : world :=
  match n with
  | O => {| cur_max := INITIAL_PROXY_CLIENT_CTXS; arrays := []; next := 0 |}
  | S m => est_proxy_init (proxies m)
  end.

Section Lib.
(** The C library's bsearch and qsort (external). *)
Variable bsearch : (node -> node -> Z) -> node -> list node -> option nat.
Variable qsort : (node -> node -> Z) -> list node -> list node.

(** bsearch and qsort over the first cur_max_ctx_array elements of an array:
    undefined if it has fewer. *)
Definition search (w : world) (key : Z) (a : list node) : res (option nat) :=
  if len a <? cur_max w then UB
  else Ok (bsearch bsearch_compare {| threadid := key; client_ctx := None |} (firstn (Z.to_nat (cur_max w)) a)).
Definition sort (w : world) (a : list node) : res (list node) :=
  if len a <? cur_max w then UB
  else Ok (qsort bsearch_compare (firstn (Z.to_nat (cur_max w)) a) ++ skipn (Z.to_nat (cur_max w)) a).

Definition array (w : world) (p : nat) : list node := nth p (arrays w) [].
Definition set_array (w : world) (p : nat) (a : list node) : world :=
  {| cur_max := cur_max w; arrays := set_nth p (arrays w) a; next := next w |}.

(** est_proxy.c:100-103: pthread_self() + getpid() as unsigned long *)
Definition thread_key (pid thread : Z) : Z := (thread + pid) mod 2 ^ 64.

(** est_proxy.c:105-109 *)
Definition find_node (w : world) (p : nat) (key : Z) : res (option nat) := search w key (array w p).

(** est_proxy.c:177-191: twice the array.  int overflow of cur_max_ctx_array is
    undefined. *)
Definition grow (w : world) (p : nat) : res world :=
  if INT_MAX <? cur_max w * 2 then UB
  else
    let w' := {| cur_max := cur_max w * 2; arrays := arrays w; next := next w |} in
    let temp_array := firstn (Z.to_nat (cur_max w)) (array w p)
                      ++ repeat zero_node (Z.to_nat (cur_max w * 2) - Z.to_nat (cur_max w)) in
    a <- sort w' temp_array ;;
    Ok (set_array w' p a).

(** est_proxy.c:167-198: the index of an unused element *)
Definition find_empty (w : world) (p : nat) : res (option nat * world) :=
  e <- search w 0 (array w p) ;;
  match e with
  | Some i => Ok (Some i, w)
  | None =>
    w' <- grow w p ;;
    e' <- search w' 0 (array w' p) ;;
    Ok (e', w')
  end.

(** est_proxy.c:203-208: the assignment through a null empty_node is undefined *)
Definition fill (w : world) (p : nat) (e : option nat) (key : Z) (c : nat) : res world :=
  match e with
  | None => UB
  | Some i =>
    if Z.of_nat i <? len (array w p) then
      a <- sort w (set_nth i (array w p) {| threadid := key; client_ctx := Some c |}) ;;
      Ok (set_array w p a)
    else UB
  end.

(** est_proxy.c:79-218 get_client_ctx.  [made]: est_client_init,
    est_client_set_auth, est_client_set_auth_cred_cb, est_client_set_server and
    est_client_set_read_timeout succeed (112-162). *)
Definition get_client_ctx (w : world) (p : nat) (key : Z) (made : bool) : res (option nat * world) :=
  found <- find_node w p key ;;
  match found with
  | Some i => Ok (client_ctx (nth i (array w p) zero_node), w)
  | None =>
    if made then
      let c := next w in
      let w1 := {| cur_max := cur_max w; arrays := arrays w; next := S c |} in
      ' (e, w2) <- find_empty w1 p ;;
      w3 <- fill w2 p e key c ;;
      Ok (Some c, w3)
    else Ok (None, w)
  end.

(** est_proxy.c:224-239 proxy_cleanup: the contexts destroyed *)
Definition proxy_cleanup (w : world) (p : nat) : res (list nat) :=
  if len (array w p) <? cur_max w then UB
  else Ok (flat_map (fun n => match client_ctx n with Some c => [c] | None => [] end)
                    (firstn (Z.to_nat (cur_max w)) (array w p))).

(** A sequence of requests, each served before the next begins. *)
Fixpoint run (pid : Z) (h : list request) (w : world) : res (list (option nat) * world) :=
  match h with
  | [] => Ok ([], w)
  | r :: h' =>
    ' (c, w1) <- get_client_ctx w (at_proxy r) (thread_key pid (by_thread r)) (creatable r) ;;
    ' (rs, w2) <- run pid h' w1 ;;
    Ok (c :: rs, w2)
  end.

(** The proxy takes no lock: the parts of get_client_ctx for two threads can
    alternate.  [w] is read and written by both. *)
Definition two_new_threads (w : world) (p : nat) (k1 k2 : Z) : res (nat * nat * world) :=
  f1 <- find_node w p k1 ;;
  f2 <- find_node w p k2 ;;
  match f1, f2 with
  | None, None =>
    let c1 := next w in let c2 := S c1 in
    let w0 := {| cur_max := cur_max w; arrays := arrays w; next := S c2 |} in
    ' (e1, w1) <- find_empty w0 p ;;
    ' (e2, w2) <- find_empty w1 p ;;
    w3 <- fill w2 p e1 k1 c1 ;;
    w4 <- fill w3 p e2 k2 c2 ;;
    Ok (c1, c2, w4)
  | _, _ => UB
  end.
End Lib.
