(** The proxy's upstream client contexts, and the contract of the C library's
    sorting and searching.  No model imports. *)
From Coq Require Import ZArith List Sorting.Sorted Sorting.Permutation.
Import ListNotations.
Open Scope Z_scope.

(** What is assumed of bsearch and qsort, for a comparison function that orders
    the elements by some number: qsort returns the same elements in order;
    bsearch returns only elements equal to the one sought, and finds one in an
    ordered array if there is one. *)
Record sort_lib {A : Type} (bsearch : (A -> A -> Z) -> A -> list A -> option nat)
    (qsort : (A -> A -> Z) -> list A -> list A) : Prop := {
  qsort_perm : forall cmp l, Permutation (qsort cmp l) l;
  qsort_sorted : forall cmp (key : A -> Z), (forall x y, Z.sgn (cmp x y) = Z.sgn (key x - key y)) ->
    forall l, StronglySorted (fun x y => key x <= key y) (qsort cmp l);
  bsearch_found : forall cmp k l i, bsearch cmp k l = Some i -> exists x, nth_error l i = Some x /\ cmp k x = 0;
  bsearch_none : forall cmp (key : A -> Z), (forall x y, Z.sgn (cmp x y) = Z.sgn (key x - key y)) ->
    forall k l, StronglySorted (fun x y => key x <= key y) l -> bsearch cmp k l = None ->
    forall x, In x l -> key x <> key k
}.

(** A thread of a proxy asks for its upstream client; [creatable]: a new client
    context could be set up at that moment. *)
Record request := { at_proxy : nat; by_thread : Z; creatable : bool }.
Definition same_client (a b : request) : Prop := at_proxy a = at_proxy b /\ by_thread a = by_thread b.

(** The answers [rs] (a context or none) to the requests [h]. *)
Record own_clients (h : list request) (rs : list (option nat)) : Prop := {
  answered : length rs = length h;
  (** different threads, and threads of different proxies, never share a
      context; a thread never gets two *)
  distinct : forall i j a b c d, nth_error h i = Some a -> nth_error h j = Some b ->
    nth_error rs i = Some (Some c) -> nth_error rs j = Some (Some d) -> (c = d <-> same_client a b);
  (** a thread that has got a context gets it again *)
  stays : forall i j a b c, (i <= j)%nat -> nth_error h i = Some a -> nth_error h j = Some b -> same_client a b ->
    nth_error rs i = Some (Some c) -> nth_error rs j = Some (Some c);
  (** and the first one whenever it can be set up *)
  served : forall j b, nth_error h j = Some b ->
    (nth_error rs j = Some None <->
     creatable b = false /\ forall i a c, (i < j)%nat -> nth_error h i = Some a -> same_client a b -> nth_error rs i <> Some (Some c))
}.

(** The different threads of proxy [p] in [h]. *)
Definition threads (p : nat) (h : list request) : list Z :=
  nodup Z.eq_dec (map by_thread (filter (fun r => Nat.eqb (at_proxy r) p) h)).
