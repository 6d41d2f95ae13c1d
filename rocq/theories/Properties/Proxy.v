(** C45: the upstream client contexts of a proxy's threads.  Read with
    Spec/Proxy.v.  [run bsearch qsort pid h (proxies n)] serves the requests [h]
    one after the other in a process with [n] proxies; threads are named by
    what pthread_self returns. *)
From Coq Require Import String ZArith List Bool Lia ZifyBool ZifyNat Sorting.Sorted Sorting.Permutation.
From Verif Require Import Base Spec.Proxy Model.Proxy Proofs.Proxy.
Import ListNotations.
Open Scope Z_scope.

(** ** The contract of the C library can be met *)
Section Instance.
Context {A : Type}.
Fixpoint insert (cmp : A -> A -> Z) (x : A) (l : list A) : list A :=
  match l with
  | [] => [x]
  | y :: l' => if cmp x y <=? 0 then x :: l else y :: insert cmp x l'
  end.
Definition isort (cmp : A -> A -> Z) (l : list A) : list A := fold_right (insert cmp) [] l.
Fixpoint lsearch (cmp : A -> A -> Z) (k : A) (l : list A) : option nat :=
  match l with
  | [] => None
  | y :: l' => if cmp k y =? 0 then Some 0%nat else option_map S (lsearch cmp k l')
  end.
Lemma insert_perm : forall cmp x l, Permutation (insert cmp x l) (x :: l).
Proof. induction l as [|y l IH]; cbn; [reflexivity|]. destruct (_ <=? 0); [reflexivity|]. etransitivity; [constructor; exact IH|]. apply perm_swap. Qed.
Lemma insert_sorted : forall cmp (key : A -> Z), (forall x y, Z.sgn (cmp x y) = Z.sgn (key x - key y)) -> forall x l,
  StronglySorted (fun x y => key x <= key y) l -> StronglySorted (fun x y => key x <= key y) (insert cmp x l).
Proof.
  intros cmp key K x. induction l as [|y l IH]; cbn; intro H; [repeat constructor|]. inversion H as [|? ? H1 H2]; subst. specialize (K x y).
  destruct (cmp x y <=? 0) eqn:E.
  - constructor; [exact H|]. constructor; [lia|]. rewrite Forall_forall in *. intros z Hz. specialize (H2 z Hz). lia.
  - constructor; [auto|]. rewrite Forall_forall in *. intros z Hz. apply (Permutation_in _ (insert_perm cmp x l)) in Hz. destruct Hz as [<-|Hz]; [lia|now apply H2].
Qed.
Lemma lib_met : sort_lib lsearch isort.
Proof.
  constructor.
  - intros cmp l. induction l as [|x l IH]; cbn; [reflexivity|]. etransitivity; [apply insert_perm|now constructor].
  - intros cmp key K l. induction l as [|x l IH]; cbn; [constructor|]. now apply insert_sorted.
  - intros cmp k l. induction l as [|y l IH]; cbn; intros i H; [discriminate|]. destruct (cmp k y =? 0) eqn:E.
    + injection H as <-. exists y. split; [reflexivity|lia].
    + destruct (lsearch cmp k l) as [j|]; [|discriminate]. injection H as <-. now apply IH.
  - intros cmp key K k l _. induction l as [|y l IH]; cbn; intros H x Hx; [destruct Hx|]. destruct (cmp k y =? 0) eqn:E; [discriminate|].
    destruct (lsearch cmp k l) as [j|]; [discriminate|]. destruct Hx as [<-|Hx]; [|auto]. intro Q. specialize (K k y). rewrite Q, Z.sub_diag in K. cbn in K. lia.
Qed.
End Instance.

Ltac ran e := let r := eval vm_compute in e in match r with Ok (?rs, ?w) => exists rs, w; split; [vm_compute; reflexivity|] end.
(** ** C45 *)
(** Requests served one after the other, by one proxy for any number of threads
    (up to 2^30), or by several proxies with at most 8 threads each. *)
Theorem C45_partial : forall bsearch qsort, sort_lib bsearch qsort -> forall pid n h,
  (n = 1%nat /\ (length (threads 0 h) <= 2 ^ 30)%nat \/ forall p, (length (threads p h) <= 8)%nat) ->
  (forall r, In r h -> (at_proxy r < n)%nat /\ 0 <= by_thread r < 2 ^ 64 /\ (by_thread r + pid) mod 2 ^ 64 <> 0) ->
  exists rs w, run bsearch qsort pid h (proxies n) = Ok (rs, w) /\ own_clients h rs.
Proof. intros bsearch qsort Lib pid n h Hb HH. destruct (proxy_run bsearch qsort Lib pid n h Hb HH) as (rs & w & E & O & _). now exists rs, w. Qed.
(** When a proxy is destroyed, each of its contexts is destroyed once, and no
    other. *)
Theorem C45_cleanup : forall bsearch qsort, sort_lib bsearch qsort -> forall pid n h,
  (n = 1%nat /\ (length (threads 0 h) <= 2 ^ 30)%nat \/ forall p, (length (threads p h) <= 8)%nat) ->
  (forall r, In r h -> (at_proxy r < n)%nat /\ 0 <= by_thread r < 2 ^ 64 /\ (by_thread r + pid) mod 2 ^ 64 <> 0) ->
  forall rs w p, run bsearch qsort pid h (proxies n) = Ok (rs, w) -> (p < n)%nat ->
  exists l, proxy_cleanup w p = Ok l /\ NoDup l
    /\ forall c, In c l <-> exists i r, nth_error h i = Some r /\ at_proxy r = p /\ nth_error rs i = Some (Some c).
Proof.
  intros bsearch qsort Lib pid n h Hb HH rs w p E Hp. destruct (proxy_run bsearch qsort Lib pid n h Hb HH) as (rs' & w' & E' & _ & C).
  rewrite E in E'. injection E' as <- <-. exact (C p Hp).
Qed.

(** The size of the tables is shared by all proxies of the process: when one
    of them gets a ninth thread, the next request at another one searches past
    the end of its table. *)
Definition asks (p : nat) (ts : list Z) : list request := map (fun t => {| at_proxy := p; by_thread := t; creatable := true |}) ts.
Theorem C45_two_proxies_refuted : run lsearch isort 100 (asks 0 [1; 2; 3; 4; 5; 6; 7; 8; 9] ++ asks 1 [1]) (proxies 2) = UB.
Proof. reflexivity. Qed.
(** and destroying that other proxy also reads past its end. *)
Theorem C45_destroy_refuted : exists rs w, run lsearch isort 100 (asks 0 [1; 2; 3; 4; 5; 6; 7; 8; 9]) (proxies 2) = Ok (rs, w)
  /\ proxy_cleanup w 1 = UB.
Proof. ran (run lsearch isort 100 (asks 0 [1; 2; 3; 4; 5; 6; 7; 8; 9]) (proxies 2)). reflexivity. Qed.

(** No lock is taken.  Two new threads 8 and 9 of a proxy that already serves
    seven: both find the same unused element, and of the nine contexts handed out
    one is no longer in the table; thread 1 gets another one. *)
Theorem C45_race_refuted : exists rs w, run lsearch isort 0 (asks 0 [1; 2; 3; 4; 5; 6; 7]) (proxies 1) = Ok (rs, w)
  /\ nth_error rs 0 = Some (Some 0%nat)
  /\ exists w', two_new_threads lsearch isort w 0 8 9 = Ok (7%nat, 8%nat, w')
  /\ exists rs2 w2, run lsearch isort 0 (asks 0 [8; 9; 1]) w' = Ok (rs2, w2) /\ rs2 = [Some 7; Some 8; Some 9]%nat.
Proof.
  ran (run lsearch isort 0 (asks 0 [1; 2; 3; 4; 5; 6; 7]) (proxies 1)). split; [reflexivity|].
  match goal with |- exists w', two_new_threads ?a ?b ?c ?d ?e ?f = _ /\ _ => let r := eval vm_compute in (two_new_threads a b c d e f) in
    match r with Ok (_, ?w) => exists w; split; [vm_compute; reflexivity|]; ran (run lsearch isort 0 (asks 0 [8; 9; 1]) w) end end.
  reflexivity.
Qed.

(** A thread whose number is the negation of the process id has the key of an
    unused element: it gets no context. *)
Theorem C45_key_refuted : exists w, run lsearch isort 100 (asks 0 [2 ^ 64 - 100]) (proxies 1) = Ok ([None], w).
Proof.
  match goal with |- exists w, ?e = _ => let r := eval vm_compute in e in match r with Ok (_, ?w) => exists w end end.
  vm_compute; reflexivity.
Qed.

(** ** Cases *)
Example C45_growth : exists w, run lsearch isort 4711 (asks 0 [90; 10; 80; 20; 70; 30; 60; 40; 50; 100; 90; 20]) (proxies 1)
  = Ok (map Some [0; 1; 2; 3; 4; 5; 6; 7; 8; 9; 0; 3]%nat, w) /\ cur_max w = 16.
Proof.
  match goal with |- exists w, ?e = _ /\ _ => let r := eval vm_compute in e in match r with Ok (_, ?w) => exists w end end.
  split; vm_compute; reflexivity.
Qed.
Example C45_one : (1%nat = 1%nat /\ (length (threads 0 (asks 0 [90; 10; 80; 20; 70; 30; 60; 40; 50; 100; 90; 20]%Z)) <= 2 ^ 30)%nat)
  /\ forall r, In r (asks 0 [90; 10; 80; 20; 70; 30; 60; 40; 50; 100; 90; 20]) ->
     (at_proxy r < 1)%nat /\ 0 <= by_thread r < 2 ^ 64 /\ (by_thread r + 4711) mod 2 ^ 64 <> 0.
Proof.
  split.
  - split; [reflexivity|]. assert (E : length (threads 0 (asks 0 [90; 10; 80; 20; 70; 30; 60; 40; 50; 100; 90; 20])) = 10%nat) by reflexivity.
    rewrite E. assert (Z.of_nat (2 ^ 30) = 1073741824) by (rewrite Nat2Z.inj_pow; reflexivity). lia.
  - intros r H. cbn in H. repeat (destruct H as [<-|H]; [cbn; lia|]). destruct H.
Qed.
Example C45_several : exists w, run lsearch isort 4711 (asks 0 [3; 1] ++ asks 1 [1; 3] ++ [{| at_proxy := 1; by_thread := 2; creatable := false |}] ++ asks 0 [1] ++ asks 1 [2]) (proxies 2)
  = Ok ([Some 0; Some 1; Some 2; Some 3; None; Some 1; Some 4]%nat, w).
Proof.
  match goal with |- exists w, ?e = _ => let r := eval vm_compute in e in match r with Ok (_, ?w) => exists w end end.
  vm_compute; reflexivity.
Qed.

Print Assumptions C45_partial.
Print Assumptions C45_cleanup.
Print Assumptions C45_two_proxies_refuted.
Print Assumptions C45_race_refuted.
