(** The proxy's table of client contexts as a map from threads to contexts. *)
From Coq Require Import String ZArith List Bool Lia ZifyBool ZifyNat Sorting.Sorted Sorting.Permutation.
From Verif Require Import Base Spec.Proxy Model.Proxy Proofs.Codec Proofs.CoapTable.
Import ListNotations.
Open Scope Z_scope.

Definition mk (e : Z * nat) : node := {| threadid := fst e; client_ctx := Some (snd e) |}.
Notation sorted := (StronglySorted (fun x y : node => threadid x <= threadid y)).

Record tab (N : nat) (a : list node) (l : list (Z * nat)) : Prop := {
  t_sorted : sorted a;
  t_perm : Permutation a (map mk l ++ repeat zero_node (N - length l));
  t_nodup : NoDup (map fst l);
  t_zero : ~ In 0 (map fst l);
  t_room : (length l <= N)%nat
}.
Lemma tab_length : forall N a l, tab N a l -> length a = N.
Proof.
  intros N a l T. rewrite (Permutation_length (t_perm _ _ _ T)), app_length, map_length, repeat_length.
  pose proof (t_room _ _ _ T). lia.
Qed.
Fixpoint find (k : Z) (l : list (Z * nat)) : option nat :=
  match l with
  | [] => None
  | (x, c) :: l' => if x =? k then Some c else find k l'
  end.
Lemma find_some : forall k l c, find k l = Some c -> In (k, c) l.
Proof. induction l as [|[x d] l IH]; cbn; intros c H; [discriminate|]. destruct (x =? k) eqn:E; [left; apply Z.eqb_eq in E; congruence|right; auto]. Qed.
Lemma find_none : forall k l, find k l = None <-> ~ In k (map fst l).
Proof.
  induction l as [|[x d] l IH]; cbn; [tauto|]. destruct (x =? k) eqn:E.
  - split; [discriminate|]. intro H. exfalso. apply H. left. lia.
  - rewrite IH. split; [intros H [->|Q]; [lia|tauto]|tauto].
Qed.
Lemma find_in : forall k l c, NoDup (map fst l) -> In (k, c) l -> find k l = Some c.
Proof.
  induction l as [|[x d] l IH]; cbn; intros c N H; [contradiction|]. destruct H as [H|H].
  - injection H as -> ->. now rewrite Z.eqb_refl.
  - inversion N as [|? ? Nx N']; subst. destruct (x =? k) eqn:E; [|auto]. apply Z.eqb_eq in E. subst x. exfalso. apply Nx. apply in_map_iff. now exists (k, c).
Qed.

Lemma compare_sgn : forall x y, Z.sgn (bsearch_compare x y) = Z.sgn (threadid x - threadid y).
Proof. intros x y. unfold bsearch_compare. destruct (threadid x >? threadid y) eqn:E; [|destruct (threadid x <? threadid y) eqn:F]; lia. Qed.
Lemma compare_zero : forall x y, bsearch_compare x y = 0 -> threadid y = threadid x.
Proof. intros x y. unfold bsearch_compare. destruct (threadid x >? threadid y) eqn:E; [|destruct (threadid x <? threadid y) eqn:F]; lia. Qed.

Section Table.
Variable bsearch : (node -> node -> Z) -> node -> list node -> option nat.
Variable qsort : (node -> node -> Z) -> list node -> list node.
Hypothesis Lib : sort_lib bsearch qsort.

Lemma tab_in : forall N a l n, tab N a l -> In n a -> (exists c, In (threadid n, c) l /\ n = mk (threadid n, c)) \/ n = zero_node.
Proof.
  intros N a l n T H. apply (Permutation_in _ (t_perm _ _ _ T)) in H. apply in_app_or in H as [H|H].
  - left. apply in_map_iff in H as ([k c] & <- & I). exists c. auto.
  - right. now apply repeat_spec in H.
Qed.
Lemma in_tab : forall N a l k c, tab N a l -> In (k, c) l -> In (mk (k, c)) a.
Proof. intros N a l k c T H. apply (Permutation_in _ (Permutation_sym (t_perm _ _ _ T))). apply in_or_app. left. now apply in_map. Qed.

Lemma search_key : forall N w a l k, tab N a l -> cur_max w = Z.of_nat N -> k <> 0 ->
  exists r, search bsearch w k a = Ok r /\
    match r with
    | Some i => exists c, find k l = Some c /\ nth_error a i = Some (mk (k, c))
    | None => find k l = None
    end.
Proof.
  intros N w a l k T C K. pose proof (tab_length _ _ _ T) as L. unfold search. replace (len a <? cur_max w) with false by (unfold len; lia).
  rewrite C, Nat2Z.id, <- L, firstn_all. eexists. split; [reflexivity|].
  destruct (bsearch _ _ _) as [i|] eqn:E.
  - destruct (bsearch_found _ _ Lib _ _ _ _ E) as (x & Hx & Ex). apply compare_zero in Ex. cbn [threadid] in Ex.
    destruct (tab_in _ _ _ x T (nth_error_In _ _ Hx)) as [(c & I & Q)|Q].
    + rewrite Ex in I, Q. exists c. split; [apply find_in; [apply (t_nodup _ _ _ T)|exact I]|now rewrite <- Q].
    + subst x. cbn in Ex. congruence.
  - apply find_none. intro I. apply in_map_iff in I as ([k' c] & Q & I). cbn in Q. subst k'.
    apply (bsearch_none _ _ Lib _ threadid compare_sgn _ _ (t_sorted _ _ _ T) E (mk (k, c))); [now apply (in_tab N a l)|reflexivity].
Qed.
Lemma search_zero : forall N w a l, tab N a l -> cur_max w = Z.of_nat N ->
  exists r, search bsearch w 0 a = Ok r /\
    match r with
    | Some i => (length l < N)%nat /\ nth_error a i = Some zero_node
    | None => length l = N
    end.
Proof.
  intros N w a l T C. pose proof (tab_length _ _ _ T) as L. unfold search. replace (len a <? cur_max w) with false by (unfold len; lia).
  rewrite C, Nat2Z.id, <- L, firstn_all. eexists. split; [reflexivity|]. rewrite L.
  destruct (bsearch _ _ _) as [i|] eqn:E.
  - destruct (bsearch_found _ _ Lib _ _ _ _ E) as (x & Hx & Ex). apply compare_zero in Ex. cbn [threadid] in Ex.
    assert (X : x = zero_node).
    { destruct (tab_in _ _ _ x T (nth_error_In _ _ Hx)) as [(c & I & Q)|Q]; [|exact Q].
      rewrite Ex in I. exfalso. apply (t_zero _ _ _ T). apply in_map_iff. now exists (0, c). }
    subst x. split; [|exact Hx]. pose proof (t_room _ _ _ T). destruct (Nat.eq_dec (length l) N) as [D|D]; [|lia].
    exfalso. apply nth_error_In in Hx. apply (Permutation_in _ (t_perm _ _ _ T)) in Hx. rewrite D, Nat.sub_diag, app_nil_r in Hx.
    apply in_map_iff in Hx as (y & Q & _). discriminate Q.
  - pose proof (t_room _ _ _ T). destruct (Nat.eq_dec (length l) N) as [D|D]; [exact D|]. exfalso.
    apply (bsearch_none _ _ Lib _ threadid compare_sgn _ _ (t_sorted _ _ _ T) E zero_node); [|reflexivity].
    apply (Permutation_in _ (Permutation_sym (t_perm _ _ _ T))). apply in_or_app. right.
    destruct (N - length l)%nat eqn:Q; [lia|now left].
Qed.
Lemma sort_ok : forall N w a, length a = N -> cur_max w = Z.of_nat N ->
  exists b, sort qsort w a = Ok b /\ Permutation b a /\ sorted b.
Proof.
  intros N w a L C. unfold sort. replace (len a <? cur_max w) with false by (unfold len; lia).
  rewrite C, Nat2Z.id, <- L, firstn_all, skipn_all, app_nil_r. eexists. split; [reflexivity|]. split; [apply (qsort_perm _ _ Lib)|].
  apply (qsort_sorted _ _ Lib _ threadid compare_sgn).
Qed.

Lemma fill_ok : forall N w p l k c i, tab N (array w p) l -> cur_max w = Z.of_nat N -> k <> 0 -> ~ In k (map fst l) -> (length l < N)%nat ->
  nth_error (array w p) i = Some zero_node ->
  exists a, fill qsort w p (Some i) k c = Ok (set_array w p a) /\ tab N a ((k, c) :: l).
Proof.
  intros N w p l k c i T C K F R I. unfold fill.
  assert (Li : (i < length (array w p))%nat) by (apply nth_error_Some; rewrite I; discriminate).
  replace (Z.of_nat i <? len (array w p)) with true by (unfold len; lia).
  destruct (sort_ok N w (set_nth i (array w p) {| threadid := k; client_ctx := Some c |})) as (b & E & P & So).
  { rewrite set_nth_length. apply (tab_length _ _ _ T). }
  { exact C. }
  rewrite E. cbn. exists b. split; [reflexivity|]. constructor.
  - exact So.
  - etransitivity; [exact P|]. cbn [map length]. cbn [Datatypes.app]. apply (perm_set_nth _ _ _ _ zero_node); [exact I|].
    etransitivity; [apply (t_perm _ _ _ T)|]. replace (N - length l)%nat with (S (N - S (length l))) by lia. cbn [repeat].
    symmetry. apply Permutation_middle.
  - cbn. constructor; [exact F|apply (t_nodup _ _ _ T)].
  - cbn. intros [Q|Q]; [auto|exact (t_zero _ _ _ T Q)].
  - cbn. lia.
Qed.
Lemma grow_ok : forall N w p l, tab N (array w p) l -> cur_max w = Z.of_nat N -> Z.of_nat N * 2 <= INT_MAX ->
  exists a, grow qsort w p = Ok {| cur_max := Z.of_nat (N * 2); arrays := set_nth p (arrays w) a; next := next w |} /\ tab (N * 2) a l.
Proof.
  intros N w p l T C B. pose proof (tab_length _ _ _ T) as L. unfold grow. rewrite C. replace (INT_MAX <? Z.of_nat N * 2) with false by lia.
  rewrite Nat2Z.id, firstn_all2 by lia. replace (Z.to_nat (Z.of_nat N * 2) - N)%nat with N by lia.
  replace (Z.of_nat N * 2) with (Z.of_nat (N * 2)) by lia.
  match goal with |- context [sort qsort ?w' ?t] => destruct (sort_ok (N * 2) w' t) as (b & E & P & So) end.
  { rewrite app_length, repeat_length. lia. }
  { reflexivity. }
  rewrite E. cbn. exists b. split; [reflexivity|]. constructor; [exact So| |apply (t_nodup _ _ _ T)|apply (t_zero _ _ _ T)|pose proof (t_room _ _ _ T); lia].
  etransitivity; [exact P|]. etransitivity; [apply Permutation_app_tail, (t_perm _ _ _ T)|].
  rewrite <- app_assoc, <- repeat_app. pose proof (t_room _ _ _ T). replace (N - length l + N)%nat with (N * 2 - length l)%nat by lia. reflexivity.
Qed.

(** ** The process *)
Record inv (n N : nat) (w : world) (m : nat -> list (Z * nat)) : Prop := {
  i_max : cur_max w = Z.of_nat N;
  i_count : length (arrays w) = n;
  i_tab : forall p, (p < n)%nat -> tab N (array w p) (m p)
}.
Definition put (m : nat -> list (Z * nat)) (p : nat) (l : list (Z * nat)) : nat -> list (Z * nat) :=
  fun q => if Nat.eqb q p then l else m q.

Lemma array_set : forall w p a, (p < length (arrays w))%nat -> array (set_array w p a) p = a.
Proof. intros w p a H. unfold array, set_array. cbn [arrays]. rewrite Base.nth_set_nth, Nat.eqb_refl; auto. Qed.
Lemma array_set_other : forall w p q a, (p < length (arrays w))%nat -> q <> p -> array (set_array w p a) q = array w q.
Proof. intros w p q a H D. unfold array, set_array. cbn [arrays]. rewrite Base.nth_set_nth by auto. now replace (Nat.eqb q p) with false by lia. Qed.

(** Enough room for another entry of [p] without moving the other proxies'
    tables. *)
Definition roomy (n N : nat) (l : list (Z * nat)) : Prop := (length l < N)%nat \/ n = 1%nat /\ Z.of_nat N * 2 <= INT_MAX.

Lemma get_ok : forall n N w m p k ok, inv n N w m -> (p < n)%nat -> (0 < N)%nat -> k <> 0 -> roomy n N (m p) ->
  exists N' w', get_client_ctx bsearch qsort w p k ok =
      Ok (match find k (m p) with Some c => Some c | None => if ok then Some (next w) else None end, w')
    /\ (N' = N \/ N' = N * 2 /\ length (m p) = N)%nat
    /\ inv n N' w' (match find k (m p) with Some _ => m | None => if ok then put m p ((k, next w) :: m p) else m end)
    /\ next w' = match find k (m p) with Some _ => next w | None => if ok then S (next w) else next w end.
Proof.
  intros n N w m p k ok I Hp HN K R. pose proof (i_tab _ _ _ _ I p Hp) as T. unfold get_client_ctx, find_node.
  destruct (search_key N w (array w p) (m p) k T (i_max _ _ _ _ I) K) as (r & -> & Hr). cbn [bind].
  destruct r as [i|].
  { destruct Hr as (c & -> & E). exists N, w. rewrite (nth_error_nth' _ _ _ zero_node _ E). cbn. auto. }
  rewrite Hr. destruct ok; [|exists N, w; auto].
  apply find_none in Hr.
  set (w1 := {| cur_max := cur_max w; arrays := arrays w; next := S (next w) |}).
  assert (T1 : tab N (array w1 p) (m p)) by exact T.
  assert (C1 : cur_max w1 = Z.of_nat N) by exact (i_max _ _ _ _ I).
  assert (L1 : length (arrays w1) = n) by exact (i_count _ _ _ _ I).
  unfold find_empty. destruct (search_zero N w1 _ _ T1 C1) as (r & -> & Hz). cbn [bind].
  destruct r as [i|].
  - destruct Hz as [Hl Hi]. cbn [bind].
    destruct (fill_ok N w1 p (m p) k (next w) i T1 C1 K Hr Hl Hi) as (a & -> & Ta). cbn [bind].
    exists N, (set_array w1 p a). split; [reflexivity|]. split; [auto|]. split; [|reflexivity].
    constructor; [exact C1|unfold set_array; cbn [arrays]; now rewrite set_nth_length|].
    intros q Hq. unfold put. destruct (Nat.eqb q p) eqn:Q.
    + apply Nat.eqb_eq in Q. subst q. rewrite array_set by lia. exact Ta.
    + rewrite array_set_other by lia. exact (i_tab _ _ _ _ I q Hq).
  - destruct R as [R|[Hn R]]; [lia|]. subst n.
    destruct (grow_ok N w1 p (m p) T1 C1 R) as (a & -> & Ta). cbn [bind].
    set (w2 := {| cur_max := Z.of_nat (N * 2); arrays := set_nth p (arrays w1) a; next := next w1 |}).
    assert (L2 : (p < length (arrays w2))%nat) by (change (arrays w2) with (set_nth p (arrays w1) a); rewrite set_nth_length; lia).
    assert (T2 : tab (N * 2) (array w2 p) (m p)).
    { unfold array, w2. cbn [arrays]. rewrite Base.nth_set_nth, Nat.eqb_refl by lia. exact Ta. }
    destruct (search_zero (N * 2) w2 _ _ T2 eq_refl) as (r & -> & Hz2). cbn [bind]. destruct r as [i|]; [|lia].
    destruct Hz2 as [Hl Hi].
    destruct (fill_ok (N * 2) w2 p (m p) k (next w) i T2 eq_refl K Hr Hl Hi) as (b & -> & Tb). cbn [bind].
    exists (N * 2)%nat, (set_array w2 p b). split; [reflexivity|]. split; [auto|]. split; [|reflexivity].
    constructor; [reflexivity|unfold set_array; cbn [arrays w2]; rewrite !set_nth_length; lia|].
    intros q Hq. assert (q = p) by lia. subst q. unfold put. rewrite Nat.eqb_refl, array_set by exact L2. exact Tb.
Qed.
Lemma cleanup_ok : forall n N w m p, inv n N w m -> (p < n)%nat ->
  exists l, proxy_cleanup w p = Ok l /\ Permutation l (map snd (m p)).
Proof.
  intros n N w m p I Hp. pose proof (i_tab _ _ _ _ I p Hp) as T. pose proof (tab_length _ _ _ T) as L. unfold proxy_cleanup. rewrite (i_max _ _ _ _ I).
  replace (len (array w p) <? Z.of_nat N) with false by (unfold len; lia). eexists. split; [reflexivity|].
  rewrite Nat2Z.id, <- L, firstn_all. etransitivity; [apply Permutation_flat_map, (t_perm _ _ _ T)|].
  rewrite flat_map_app. rewrite <- app_nil_r. apply Permutation_app.
  - clear. induction (m p) as [|[k c] l IH]; cbn; [constructor|]. now constructor.
  - clear. induction (N - length (m p))%nat as [|x IH]; cbn; [constructor|exact IH].
Qed.
Lemma proxies_max : forall n, cur_max (proxies n) = INITIAL_PROXY_CLIENT_CTXS.
Proof. induction n; [reflexivity|exact IHn]. Qed.
Lemma init_ok : forall n, inv n 8 (proxies n) (fun _ => []).
Proof.
  induction n as [|n IH]; [constructor; try reflexivity; intros; lia|].
  constructor; [apply proxies_max|cbn; rewrite app_length, (i_count _ _ _ _ IH); cbn; lia|].
  intros p Hp. unfold array. cbn [proxies est_proxy_init arrays]. destruct (Nat.eq_dec p n) as [->|D].
  - rewrite app_nth2 by (rewrite (i_count _ _ _ _ IH); lia). rewrite (i_count _ _ _ _ IH), Nat.sub_diag. cbn [nth]. rewrite proxies_max.
    constructor; try (cbn; try constructor; tauto || lia).
    change (Z.to_nat INITIAL_PROXY_CLIENT_CTXS) with 8%nat. generalize 8%nat. clear. induction n as [|n IH]; cbn; constructor; [exact IH|].
    apply Forall_forall. intros x Hx. apply repeat_spec in Hx. subst. reflexivity.
  - rewrite app_nth1 by (rewrite (i_count _ _ _ _ IH); lia). apply (i_tab _ _ _ _ IH). lia.
Qed.
Lemma init_next : forall n, next (proxies n) = 0%nat.
Proof. induction n; [reflexivity|exact IHn]. Qed.

(** ** The abstract machine *)
Section Run.
Variable pid : Z.
Let key (r : request) : Z := thread_key pid (by_thread r).
Definition abs := ((nat -> list (Z * nat)) * nat)%type.
Definition astep (r : request) (s : abs) : option nat * abs :=
  let '(m, nx) := s in
  match find (key r) (m (at_proxy r)) with
  | Some c => (Some c, s)
  | None => if creatable r then (Some nx, (put m (at_proxy r) ((key r, nx) :: m (at_proxy r)), S nx)) else (None, s)
  end.
Fixpoint arun (h : list request) (s : abs) : list (option nat) * abs :=
  match h with
  | [] => ([], s)
  | r :: h' => let '(c, s1) := astep r s in let '(rs, s2) := arun h' s1 in (c :: rs, s2)
  end.

Lemma run_ok : forall n (H : list request),
  (n = 1%nat /\ (length (threads 0 H) <= 2 ^ 30)%nat \/ forall p, (length (threads p H) <= 8)%nat) ->
  (forall r, In r H -> (at_proxy r < n)%nat /\ key r <> 0) ->
  forall h N w m, (forall r, In r h -> In r H) -> inv n N w m -> (8 <= N)%nat ->
  (forall p k, In k (map fst (m p)) -> In k (map (thread_key pid) (threads p H))) ->
  exists N' w', run bsearch qsort pid h w = Ok (fst (arun h (m, next w)), w')
    /\ inv n N' w' (fst (snd (arun h (m, next w)))).
Proof.
  intros n H Hb HH. induction h as [|r h IH]; intros N w m Hi I HN D; [exists N, w; auto|].
  destruct (HH r (Hi r (or_introl eq_refl))) as [Hp Hk].
  assert (Lm : forall (l : list (Z * nat)) p, NoDup (map fst l) -> (forall k, In k (map fst l) -> In k (map (thread_key pid) (threads p H))) ->
    (length l <= length (threads p H))%nat).
  { intros l p ND Q. rewrite <- (map_length fst l), <- (map_length (thread_key pid) (threads p H)). apply NoDup_incl_length; [exact ND|exact Q]. }
  assert (Kin : In (key r) (map (thread_key pid) (threads (at_proxy r) H))).
  { unfold key. apply in_map. unfold threads. apply nodup_In. apply in_map. apply filter_In. split; [apply Hi; now left|apply Nat.eqb_refl]. }
  assert (R : find (key r) (m (at_proxy r)) = None -> roomy n N (m (at_proxy r))).
  { intro F. apply find_none in F.
    assert (B : (length ((key r, O) :: m (at_proxy r)) <= length (threads (at_proxy r) H))%nat).
    { apply Lm; [cbn; constructor; [exact F|apply (t_nodup _ _ _ (i_tab _ _ _ _ I _ Hp))]|].
      cbn. intros k [<-|Q]; [exact Kin|now apply D]. }
    cbn [length] in B. unfold roomy. destruct (Nat.eq_dec (length (m (at_proxy r))) N) as [E|E].
    - right. destruct Hb as [[-> Hb]|Hb].
      + split; [reflexivity|]. assert (at_proxy r = 0%nat) as A by lia. rewrite A in *.
        assert (Z.of_nat (2 ^ 30) = 1073741824) by (rewrite Nat2Z.inj_pow; reflexivity). unfold INT_MAX. lia.
      + specialize (Hb (at_proxy r)). lia.
    - left. pose proof (t_room _ _ _ (i_tab _ _ _ _ I _ Hp)). lia. }
  cbn [run arun]. fold (key r). unfold astep.
  destruct (find (key r) (m (at_proxy r))) as [c|] eqn:F.
  - assert (G : exists i, find_node bsearch w (at_proxy r) (key r) = Ok (Some i) /\ nth_error (array w (at_proxy r)) i = Some (mk (key r, c))).
    { unfold find_node. destruct (search_key N w _ _ (key r) (i_tab _ _ _ _ I _ Hp) (i_max _ _ _ _ I) Hk) as (x & E & Hx).
      destruct x as [i|]; [|congruence]. destruct Hx as (c' & F' & E'). exists i. split; [exact E|]. congruence. }
    destruct G as (i & G1 & G2). unfold get_client_ctx. rewrite G1. cbn [bind]. rewrite (nth_error_nth' _ _ _ zero_node _ G2). cbn [client_ctx mk snd].
    destruct (IH N w m) as (N' & w' & E & I'); auto; [intros; apply Hi; now right|].
    rewrite E. cbn [bind]. destruct (arun h (m, next w)) as [rs s2]. exists N', w'. auto.
  - destruct (get_ok n N w m (at_proxy r) (key r) (creatable r) I Hp) as (N1 & w1 & E & HN1 & I1 & X1); [lia|exact Hk|now apply R|].
    rewrite F in E, I1, X1. rewrite E. cbn [bind].
    destruct (creatable r).
    + destruct (IH N1 w1 (put m (at_proxy r) ((key r, next w) :: m (at_proxy r)))) as (N' & w' & E' & I'); [intros; apply Hi; now right|exact I1|lia| |].
      { intros p k Q. unfold put in Q. destruct (Nat.eqb p (at_proxy r)) eqn:P; [|now apply D]. apply Nat.eqb_eq in P. subst p.
        cbn in Q. destruct Q as [<-|Q]; [exact Kin|now apply D]. }
      rewrite X1 in E', I'. rewrite E'. cbn [bind]. destruct (arun h _) as [rs s2]. exists N', w'. auto.
    + destruct (IH N1 w1 m) as (N' & w' & E' & I'); [intros; apply Hi; now right|exact I1|lia|exact D|].
      rewrite X1 in E', I'. rewrite E'. cbn [bind]. destruct (arun h _) as [rs s2]. exists N', w'. auto.
Qed.

Record sane (s : abs) : Prop := {
  s_inj : forall p q k k' c, find k (fst s p) = Some c -> find k' (fst s q) = Some c -> p = q /\ k = k';
  s_lt : forall p k c, find k (fst s p) = Some c -> (c < snd s)%nat
}.
Lemma find_put : forall m p k c q k', find k' (put m p ((k, c) :: m p) q) = if Nat.eqb q p && (k =? k') then Some c else find k' (m q).
Proof.
  intros m p k c q k'. unfold put. destruct (Nat.eqb q p) eqn:E; cbn [andb]; [|reflexivity]. apply Nat.eqb_eq in E. subst q. reflexivity.
Qed.
Lemma astep_facts : forall r s c s1, astep r s = (c, s1) -> sane s ->
  sane s1 /\ (forall p k d, find k (fst s p) = Some d -> find k (fst s1 p) = Some d)
  /\ (forall d, c = Some d -> find (key r) (fst s1 (at_proxy r)) = Some d)
  /\ (c = None <-> creatable r = false /\ find (key r) (fst s (at_proxy r)) = None)
  /\ (forall p k d, find k (fst s1 p) = Some d -> find k (fst s p) = Some d \/ p = at_proxy r /\ k = key r /\ c = Some d).
Proof.
  intros r [m nx] c s1 E S. unfold astep in E. destruct (find (key r) (m (at_proxy r))) as [d|] eqn:F.
  { injection E as <- <-. cbn [fst snd] in *. repeat (split; auto); intros; try congruence; try tauto. destruct H as [_ H]. congruence. }
  destruct (creatable r).
  2: { injection E as <- <-. cbn [fst snd] in *. repeat (split; auto); intros; try congruence; try tauto. }
  injection E as <- <-. cbn [fst snd]. destruct S as [Si Sl]. cbn [fst snd] in *. split; [|split; [|split; [|split]]].
  - constructor; cbn [fst snd].
    + intros p q k k' c. rewrite !find_put.
      destruct (Nat.eqb p (at_proxy r) && (key r =? k)) eqn:P; destruct (Nat.eqb q (at_proxy r) && (key r =? k')) eqn:Q; intros A B.
      * lia.
      * injection A as <-. apply Sl in B. lia.
      * injection B as <-. apply Sl in A. lia.
      * eauto.
    + intros p k c. rewrite find_put. destruct (_ && _); intro A; [injection A as <-; lia|apply Sl in A; lia].
  - intros p k d A. rewrite find_put. destruct (_ && _) eqn:P; [|exact A]. assert (p = at_proxy r /\ key r = k) as [-> <-] by lia. congruence.
  - intros d A. rewrite find_put, Nat.eqb_refl, Z.eqb_refl. exact A.
  - split; [discriminate|intros []; discriminate].
  - intros p k d. rewrite find_put. destruct (_ && _) eqn:P; intro A; [right|now left]. split; [lia|]. split; [lia|exact A].
Qed.

Definition same (a b : request) : Prop := at_proxy a = at_proxy b /\ key a = key b.
Lemma arun_facts : forall h s rs s', arun h s = (rs, s') -> sane s ->
  sane s' /\ (forall p k d, find k (fst s p) = Some d -> find k (fst s' p) = Some d)
  /\ length rs = length h
  /\ (forall j r c, nth_error h j = Some r -> nth_error rs j = Some (Some c) -> find (key r) (fst s' (at_proxy r)) = Some c)
  /\ (forall j r c, nth_error h j = Some r -> find (key r) (fst s (at_proxy r)) = Some c -> nth_error rs j = Some (Some c))
  /\ (forall i j a b c, (i <= j)%nat -> nth_error h i = Some a -> nth_error h j = Some b -> same a b ->
       nth_error rs i = Some (Some c) -> nth_error rs j = Some (Some c))
  /\ (forall j b, nth_error h j = Some b ->
       (nth_error rs j = Some None <-> creatable b = false /\ find (key b) (fst s (at_proxy b)) = None
         /\ forall i a c, (i < j)%nat -> nth_error h i = Some a -> same a b -> nth_error rs i <> Some (Some c)))
  /\ (forall p k c, find k (fst s' p) = Some c -> find k (fst s p) = Some c \/
       exists i r, nth_error h i = Some r /\ at_proxy r = p /\ key r = k /\ nth_error rs i = Some (Some c)).
Proof.
  induction h as [|r h IH]; intros s rs s' E S.
  { cbn in E. injection E as <- <-. repeat (split; auto); intros; try (destruct j; discriminate); try (destruct i; discriminate). }
  cbn in E. destruct (astep r s) as [c s1] eqn:E1. destruct (arun h s1) as [rs1 s2] eqn:E2. injection E as <- <-.
  destruct (astep_facts _ _ _ _ E1 S) as (S1 & X1 & G1 & N1 & O1).
  destruct (IH _ _ _ E2 S1) as (S2 & X2 & L2 & G2 & K2 & T2 & N2 & O2).
  split; [exact S2|]. split; [auto|]. split; [cbn; lia|].
  split; [intros [|j] a d Ha Hd; cbn in Ha, Hd; [injection Ha as <-; injection Hd as ->; auto|eauto]|].
  split.
  { intros [|j] a d Ha Hd; cbn in Ha |- *; [injection Ha as <-|].
    - apply X1 in Hd. destruct c as [d'|].
      + specialize (G1 d' eq_refl). congruence.
      + exfalso. destruct (proj1 N1 eq_refl) as [C F]. unfold astep in E1. destruct s as [m nx]. cbn in F. rewrite F, C in E1. injection E1 as <-. cbn in Hd. congruence.
    - eauto. }
  split.
  { intros [|i] [|j] a b d Hij Ha Hb [Sp Sk] Hd; cbn in Ha, Hb, Hd |- *; try lia.
    - injection Ha as <-. injection Hb as <-. exact Hd.
    - injection Ha as <-. injection Hd as ->. apply (K2 j b d Hb). rewrite <- Sp, <- Sk. now apply G1.
    - apply (T2 i j a b d); auto; [lia|split; auto]. }
  split.
  { intros [|j] b Hb; cbn in Hb.
    - injection Hb as <-. cbn. split.
      + intro Q. injection Q as ->. destruct (proj1 N1 eq_refl) as [C F]. split; [exact C|]. split; [exact F|]. intros. lia.
      + intros (C & F & _). f_equal. apply N1. auto.
    - change (nth_error (c :: rs1) (Datatypes.S j)) with (nth_error rs1 j). rewrite (N2 j b Hb). split.
      + intros (C & F & Q). split; [exact C|]. split.
        * destruct (find (key b) (fst s (at_proxy b))) as [d|] eqn:Y; [|reflexivity]. apply X1 in Y. congruence.
        * intros [|i] a d Hij Ha Sab; cbn in Ha |- *.
          -- injection Ha as <-. intro Y. injection Y as ->. destruct Sab as [Sp Sk]. specialize (G1 d eq_refl). rewrite Sp, Sk in G1. congruence.
          -- apply (Q i a d); auto. lia.
      + intros (C & F & Q). split; [exact C|]. split.
        * destruct (find (key b) (fst s1 (at_proxy b))) as [d|] eqn:Y; [|reflexivity]. destruct (O1 _ _ _ Y) as [Z|(Zp & Zk & ->)]; [congruence|].
          exfalso. apply (Q 0%nat r d); [lia|reflexivity|split; auto|reflexivity].
        * intros i a d Hij Ha Sab. apply (Q (Datatypes.S i) a d); auto. lia. }
  intros p k d F. destruct (O2 _ _ _ F) as [F1|(i & a & Ha & Hp & Hk & Hd)].
  - destruct (O1 _ _ _ F1) as [F0|(-> & -> & ->)]; [now left|]. right. exists 0%nat, r. auto.
  - right. exists (Datatypes.S i), a. auto.
Qed.
End Run.
Lemma key_inj : forall pid a b, 0 <= a < 2 ^ 64 -> 0 <= b < 2 ^ 64 -> thread_key pid a = thread_key pid b -> a = b.
Proof.
  intros pid a b Ha Hb E. unfold thread_key in E.
  assert (Q : (a + pid - (b + pid)) mod 2 ^ 64 = 0) by (rewrite Zminus_mod, E, Z.sub_diag; reflexivity).
  replace (a + pid - (b + pid)) with (a - b) in Q by lia. apply Z.mod_divide in Q; [|lia]. destruct Q as [z Q].
  assert (z = 0) by nia. lia.
Qed.

Theorem proxy_run : forall pid n h,
  (n = 1%nat /\ (length (threads 0 h) <= 2 ^ 30)%nat \/ forall p, (length (threads p h) <= 8)%nat) ->
  (forall r, In r h -> (at_proxy r < n)%nat /\ 0 <= by_thread r < 2 ^ 64 /\ (by_thread r + pid) mod 2 ^ 64 <> 0) ->
  exists rs w, run bsearch qsort pid h (proxies n) = Ok (rs, w) /\ own_clients h rs
    /\ forall p, (p < n)%nat -> exists l, proxy_cleanup w p = Ok l /\ NoDup l
        /\ forall c, In c l <-> exists i r, nth_error h i = Some r /\ at_proxy r = p /\ nth_error rs i = Some (Some c).
Proof.
  intros pid n h Hb HH.
  destruct (run_ok pid n h Hb (fun r I => conj (proj1 (HH r I)) (proj2 (proj2 (HH r I)))) h 8 (proxies n) (fun _ => [])) as (N & w & E & I);
    [auto|apply init_ok|lia|intros p k []|].
  rewrite init_next in E, I. destruct (arun pid h (fun _ => [], 0%nat)) as [rs [m nx]] eqn:A. cbn [fst snd] in E, I.
  exists rs, w. split; [exact E|].
  assert (S0 : sane ((fun _ : nat => @nil (Z * nat)), 0%nat)) by (constructor; cbn; intros; discriminate).
  destruct (arun_facts pid h _ _ _ A S0) as (S & _ & L & G & _ & T & Nn & O).
  assert (SC : forall i j a b, nth_error h i = Some a -> nth_error h j = Some b -> (same pid a b <-> same_client a b)).
  { intros i j a b Ha Hb'. apply nth_error_In in Ha, Hb'. destruct (HH _ Ha) as (_ & Ra & _). destruct (HH _ Hb') as (_ & Rb & _).
    unfold same, same_client. split; intros [P Q]; (split; [exact P|]).
    - now apply (key_inj pid).
    - now rewrite Q. }
  split.
  { constructor.
    - exact L.
    - intros i j a b c d Ha Hb' Hc Hd. rewrite <- (SC i j a b Ha Hb'). pose proof (G _ _ _ Ha Hc) as F1. pose proof (G _ _ _ Hb' Hd) as F2. split.
      + intros <-. destruct (s_inj _ S _ _ _ _ _ F1 F2) as [P Q]. split; assumption.
      + intros [P Q]. rewrite P, Q in F1. congruence.
    - intros i j a b c Hij Ha Hb' Sab. apply (T i j a b c Hij Ha Hb'). now apply (SC i j).
    - intros j b Hb'. rewrite (Nn j b Hb'). cbn. split.
      + intros (C & _ & Q). split; [exact C|]. intros i a c Hij Ha Sab. apply (Q i a c Hij Ha). now apply (SC i j).
      + intros (C & Q). split; [exact C|]. split; [reflexivity|]. intros i a c Hij Ha Sab. apply (Q i a c Hij Ha). now apply (SC i j). }
  intros p Hp. destruct (cleanup_ok n N w m p I Hp) as (l & El & Pl). exists l. split; [exact El|].
  pose proof (t_nodup _ _ _ (i_tab _ _ _ _ I p Hp)) as ND. split.
  - apply (Permutation_NoDup (Permutation_sym Pl)).
    assert (Q : forall l0, (forall x, In x l0 -> In x (m p)) -> NoDup (map fst l0) -> NoDup (map snd l0)).
    { induction l0 as [|[k c] l0 IH]; cbn; intros Hi Hn; [constructor|]. inversion Hn as [|? ? Nk Hn']; subst. constructor; [|apply IH; auto].
      intro X. apply in_map_iff in X as ([k' c'] & Q & X). cbn in Q. subst c'.
      assert (F1 : find k (m p) = Some c) by (apply find_in; auto).
      assert (F2 : find k' (m p) = Some c) by (apply find_in; auto).
      destruct (s_inj _ S _ _ _ _ _ F1 F2) as [_ <-]. apply Nk. apply in_map_iff. now exists (k, c). }
    apply Q; auto.
  - intro c. split.
    + intro X. apply (Permutation_in _ Pl) in X. apply in_map_iff in X as ([k c'] & Q & X). cbn in Q. subst c'.
      destruct (O p k c (find_in _ _ _ ND X)) as [F|(i & r & Ha & P & _ & Hd)]; [discriminate F|]. now exists i, r.
    + intros (i & r & Ha & P & Hd). apply (Permutation_in _ (Permutation_sym Pl)). apply (G _ _ _ Ha) in Hd. rewrite P in Hd.
      cbn in Hd. apply find_some in Hd. apply in_map_iff. eexists. split; [|exact Hd]. reflexivity.
Qed.
End Table.
