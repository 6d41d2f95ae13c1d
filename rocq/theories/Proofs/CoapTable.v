(** The array of CoAP request states as a map from keys to states. *)
From Coq Require Import String ZArith List Bool Lia ZifyBool ZifyNat Sorting.Sorted Sorting.Permutation.
From Verif Require Import Base Spec.Coap Model.CLib Model.EstErr Model.Codec Model.Coap.
Import ListNotations.
Open Scope Z_scope.

Lemma bytes_eq_dec : forall a b : bytes, {a = b} + {a <> b}.
Proof. exact (list_eq_dec Z.eq_dec). Qed.

(** ** Lists *)
Lemma split_nth : forall (A : Type) (l : list A) i n, nth_error l i = Some n -> l = firstn i l ++ n :: skipn (S i) l.
Proof.
  induction l as [|x l IH]; intros [|i] n H; try discriminate; cbn in *; [now inversion H|]. now rewrite <- (IH i n).
Qed.
Lemma set_nth_split : forall (A : Type) (l : list A) i (v n : A), nth_error l i = Some n ->
  set_nth i l v = firstn i l ++ v :: skipn (S i) l.
Proof. induction l as [|x l IH]; intros [|i] v n H; try discriminate; cbn in *; [reflexivity|]. now rewrite (IH i v n). Qed.
Lemma nth_set_nth : forall (A : Type) (l : list A) i (v d n : A), nth_error l i = Some n -> nth i (set_nth i l v) d = v.
Proof. induction l as [|x l IH]; intros [|i] v d n H; try discriminate; cbn in *; [reflexivity|]. now apply (IH i v d n). Qed.
Lemma nth_error_set_nth : forall (A : Type) (l : list A) i (v n : A), nth_error l i = Some n -> nth_error (set_nth i l v) i = Some v.
Proof. induction l as [|x l IH]; intros [|i] v n H; try discriminate; cbn in *; [reflexivity|]. now apply (IH i v n). Qed.
Lemma nth_error_nth' : forall (A : Type) (l : list A) i (d n : A), nth_error l i = Some n -> nth i l d = n.
Proof. induction l as [|x l IH]; intros [|i] d n H; try discriminate; cbn in *; [now inversion H|]. now apply (IH i d n). Qed.
Lemma perm_set_nth : forall (A : Type) (l : list A) i (v n : A) rest, nth_error l i = Some n ->
  Permutation l (n :: rest) -> Permutation (set_nth i l v) (v :: rest).
Proof.
  intros A l i v n rest H P. rewrite (set_nth_split A l i v n H). rewrite (split_nth A l i n H) in P.
  etransitivity; [symmetry; apply Permutation_middle|]. constructor.
  apply Permutation_cons_inv with n. etransitivity; [apply Permutation_middle|exact P].
Qed.

Lemma key_sorted_set : forall l i (v n : node), nth_error l i = Some n -> q_key v = q_key n ->
  StronglySorted (fun x y => lex_le (q_key x) (q_key y)) l ->
  StronglySorted (fun x y => lex_le (q_key x) (q_key y)) (set_nth i l v).
Proof.
  induction l as [|x l IH]; intros [|i] v n H E S; try discriminate; cbn in *.
  - inversion H; subst. inversion S as [|? ? S' F]; subst. constructor; [exact S'|]. now rewrite E.
  - inversion S as [|? ? S' F]; subst. constructor; [now apply (IH i v n)|].
    rewrite Forall_forall in *. intros y Hy. rewrite (set_nth_split _ l i v n H) in Hy.
    apply in_app_or in Hy as [Hy|[<-|Hy]].
    + apply F. rewrite (split_nth _ l i n H). apply in_or_app. now left.
    + rewrite E. apply F. rewrite (split_nth _ l i n H). apply in_or_app. right. now left.
    + apply F. rewrite (split_nth _ l i n H). apply in_or_app. right. now right.
Qed.

(** ** The map *)
Definition upd (f : bytes -> node) (k : bytes) (n : node) : bytes -> node :=
  fun k' => if bytes_eq_dec k k' then n else f k'.
Lemma upd_same : forall f k n, upd f k n k = n.
Proof. intros. unfold upd. now destruct (bytes_eq_dec k k). Qed.
Lemma upd_other : forall f k n k', k <> k' -> upd f k n k' = f k'.
Proof. intros. unfold upd. now destruct (bytes_eq_dec k k'). Qed.

Definition others (k : bytes) (dom : list bytes) : list bytes := remove bytes_eq_dec k dom.

Lemma perm_remove : forall k dom, In k dom -> NoDup dom -> Permutation dom (k :: others k dom).
Proof.
  intros k dom. induction dom as [|x dom IH]; intros H N; [destruct H|]. inversion N as [|? ? Nx N']; subst.
  unfold others. cbn. destruct (bytes_eq_dec k x) as [->|D].
  - rewrite (notin_remove bytes_eq_dec dom x Nx). reflexivity.
  - destruct H as [->|H]; [congruence|]. etransitivity; [constructor; apply IH; assumption|]. apply perm_swap.
Qed.
Lemma others_notin : forall k dom, ~ In k (others k dom).
Proof. intros. apply remove_In. Qed.
Lemma others_in : forall k k' dom, In k' (others k dom) <-> In k' dom /\ k' <> k.
Proof.
  intros k k' dom. split.
  - intro H. apply in_remove in H. exact H.
  - intros [H D]. apply in_in_remove; auto.
Qed.
Lemma others_nodup : forall k dom, NoDup dom -> NoDup (others k dom).
Proof.
  intros k dom N. induction N as [|x dom Nx N IH]; [constructor|]. unfold others in *. cbn.
  destruct (bytes_eq_dec k x); [exact IH|]. constructor; [|exact IH]. intro H. apply in_remove in H. tauto.
Qed.
Lemma others_length : forall k dom, In k dom -> NoDup dom -> length dom = S (length (others k dom)).
Proof. intros k dom H N. pose proof (Permutation_length (perm_remove k dom H N)) as E. exact E. Qed.

Lemma map_upd : forall f k n dom, ~ In k dom -> map (upd f k n) dom = map f dom.
Proof.
  intros f k n dom H. apply map_ext_in. intros k' Hk. apply upd_other. intro. subst. contradiction.
Qed.

Section Table.
Variable bsearch : bytes -> list node -> option nat.
Variable qsort : list node -> list node.
Hypothesis Lib : search_lib q_key bsearch qsort.
Variable N : nat.

Record holds (t : table) (dom : list bytes) (f : bytes -> node) : Prop := {
  h_sorted : StronglySorted (fun x y => lex_le (q_key x) (q_key y)) (t_nodes t);
  h_perm : Permutation (t_nodes t) (map f dom ++ repeat zero_node (N - length dom));
  h_nodup : NoDup dom;
  h_key : forall k, In k dom -> q_key (f k) = k;
  h_ne : ~ In [] dom;
  h_room : (length dom <= N)%nat;
  h_cnt : t_cnt t = len dom
}.

Lemma init_holds : forall f, holds (est_coap_init_req_array (Z.of_nat N)) [] f.
Proof.
  intro f. unfold est_coap_init_req_array. rewrite Nat2Z.id. constructor; cbn; try (constructor); try tauto; try lia.
  - induction N as [|m IH]; cbn; constructor; [exact IH|]. apply Forall_forall. intros x Hx. apply repeat_spec in Hx. now subst.
  - rewrite Nat.sub_0_r. reflexivity.
Qed.

Lemma holds_in : forall t dom f n, holds t dom f -> In n (t_nodes t) -> (In (q_key n) dom /\ n = f (q_key n)) \/ n = zero_node.
Proof.
  intros t dom f n H Hn. apply (Permutation_in _ (h_perm _ _ _ H)) in Hn. apply in_app_or in Hn as [Hn|Hn].
  - apply in_map_iff in Hn as (k & <- & Hk). left. rewrite (h_key _ _ _ H) by assumption. auto.
  - right. now apply repeat_spec in Hn.
Qed.
Lemma in_holds : forall t dom f k, holds t dom f -> In k dom -> In (f k) (t_nodes t).
Proof.
  intros t dom f k H Hk. apply (Permutation_in _ (Permutation_sym (h_perm _ _ _ H))). apply in_or_app. left. now apply in_map.
Qed.

Lemma search_present : forall t dom f k, holds t dom f -> In k dom ->
  exists i, bsearch k (t_nodes t) = Some i /\ nth_error (t_nodes t) i = Some (f k).
Proof.
  intros t dom f k H Hk. destruct (bsearch k (t_nodes t)) as [i|] eqn:E.
  - exists i. split; [reflexivity|]. destruct (search_found _ _ _ Lib _ _ _ E) as (n & Hn & Kn). rewrite Hn. f_equal.
    destruct (holds_in _ _ _ n H (nth_error_In _ _ Hn)) as [[_ ->]|Z]; [now rewrite Kn|].
    subst n. cbn in Kn. subst k. exfalso. exact (h_ne _ _ _ H Hk).
  - exfalso. apply (search_none _ _ _ Lib _ _ (h_sorted _ _ _ H) E (f k)); [now apply (in_holds t dom)|].
    now apply (h_key _ _ _ H).
Qed.
Lemma search_absent : forall t dom f k, holds t dom f -> ~ In k dom -> k <> [] -> bsearch k (t_nodes t) = None.
Proof.
  intros t dom f k H Hk Hne. destruct (bsearch k (t_nodes t)) as [i|] eqn:E; [|reflexivity]. exfalso.
  destruct (search_found _ _ _ Lib _ _ _ E) as (n & Hn & Kn).
  destruct (holds_in _ _ _ n H (nth_error_In _ _ Hn)) as [[X _]|Z]; [now rewrite Kn in X|]. subst n. cbn in Kn. congruence.
Qed.
Lemma search_free : forall t dom f, holds t dom f -> (length dom < N)%nat ->
  exists i, bsearch [] (t_nodes t) = Some i /\ nth_error (t_nodes t) i = Some zero_node.
Proof.
  intros t dom f H L. destruct (bsearch [] (t_nodes t)) as [i|] eqn:E.
  - exists i. split; [reflexivity|]. destruct (search_found _ _ _ Lib _ _ _ E) as (n & Hn & Kn). rewrite Hn. f_equal.
    destruct (holds_in _ _ _ n H (nth_error_In _ _ Hn)) as [[X _]|Z]; [|exact Z].
    rewrite Kn in X. exfalso. exact (h_ne _ _ _ H X).
  - exfalso. apply (search_none _ _ _ Lib _ _ (h_sorted _ _ _ H) E zero_node); [|reflexivity].
    apply (Permutation_in _ (Permutation_sym (h_perm _ _ _ H))). apply in_or_app. right.
    destruct (N - length dom)%nat eqn:D; [lia|]. now left.
Qed.
Lemma search_full : forall t dom f, holds t dom f -> length dom = N -> bsearch [] (t_nodes t) = None.
Proof.
  intros t dom f H L. destruct (bsearch [] (t_nodes t)) as [i|] eqn:E; [|reflexivity]. exfalso.
  destruct (search_found _ _ _ Lib _ _ _ E) as (n & Hn & Kn). apply nth_error_In in Hn.
  apply (Permutation_in _ (h_perm _ _ _ H)) in Hn. rewrite L, Nat.sub_diag, app_nil_r in Hn.
  apply in_map_iff in Hn as (k & <- & Hk). rewrite (h_key _ _ _ H) in Kn by assumption. subst k. exact (h_ne _ _ _ H Hk).
Qed.

Lemma perm_focus : forall f k dom z, In k dom -> NoDup dom ->
  Permutation (map f dom ++ repeat zero_node z) (f k :: map f (others k dom) ++ repeat zero_node z).
Proof.
  intros f k dom z Hk ND. change (f k :: map f (others k dom) ++ repeat zero_node z)
    with (map f (k :: others k dom) ++ repeat zero_node z).
  apply Permutation_app_tail, Permutation_map. now apply perm_remove.
Qed.

(** Replacing the state of a key. *)
Lemma holds_set : forall t dom f k i n, holds t dom f -> In k dom -> nth_error (t_nodes t) i = Some (f k) -> q_key n = k ->
  holds {| t_nodes := set_nth i (t_nodes t) n; t_cnt := t_cnt t |} dom (upd f k n).
Proof.
  intros t dom f k i n H Hk Hi Kn. constructor; cbn [t_nodes t_cnt].
  - apply (key_sorted_set _ _ _ (f k)); [exact Hi| |apply (h_sorted _ _ _ H)]. rewrite Kn. symmetry. now apply (h_key _ _ _ H).
  - etransitivity; [apply (perm_set_nth _ _ _ _ (f k) (map f (others k dom) ++ repeat zero_node (N - length dom))); [exact Hi|]|].
    + etransitivity; [apply (h_perm _ _ _ H)|]. apply perm_focus; [exact Hk|apply (h_nodup _ _ _ H)].
    + symmetry. etransitivity; [apply (perm_focus (upd f k n) k); [exact Hk|apply (h_nodup _ _ _ H)]|].
      rewrite upd_same, map_upd by apply others_notin. reflexivity.
  - apply (h_nodup _ _ _ H).
  - intros k' Hk'. unfold upd. destruct (bytes_eq_dec k k') as [<-|]; [exact Kn|now apply (h_key _ _ _ H)].
  - apply (h_ne _ _ _ H).
  - apply (h_room _ _ _ H).
  - apply (h_cnt _ _ _ H).
Qed.

Definition refreshed (n : node) (op : coap_op) : node :=
  if negb (op_eqb (q_op n) op) && negb (op_eqb op OpReset) then reinit_coap_req n op else n.
Lemma refreshed_key : forall n op, q_key (refreshed n op) = q_key n.
Proof. intros. unfold refreshed. now destruct (_ && _). Qed.

Lemma get_present : forall t dom f p k op, holds t dom f -> search_key p = Some k -> In k dom ->
  exists i t', get_coap_req bsearch qsort t p op = (Some i, t')
    /\ holds t' dom (upd f k (refreshed (f k) op))
    /\ nth_error (t_nodes t') i = Some (refreshed (f k) op).
Proof.
  intros t dom f p k op H Hp Hk. unfold get_coap_req. rewrite Hp.
  destruct (search_present _ _ _ _ H Hk) as (i & -> & Hi).
  rewrite (nth_error_nth' _ _ _ zero_node _ Hi). unfold refreshed.
  destruct (negb (op_eqb (q_op (f k)) op) && negb (op_eqb op OpReset)) eqn:E.
  - exists i, {| t_nodes := set_nth i (t_nodes t) (reinit_coap_req (f k) op); t_cnt := t_cnt t |}. split; [reflexivity|]. split.
    + apply holds_set; auto. cbn. now apply (h_key _ _ _ H).
    + cbn. now apply nth_error_set_nth with (f k).
  - exists i, t. split; [reflexivity|]. split; [|exact Hi].
    assert (EE : map (upd f k (f k)) dom = map f dom).
    { apply map_ext. intro k'. unfold upd. destruct (bytes_eq_dec k k') as [<-|]; reflexivity. }
    destruct H as [S P ND K NE R C]. constructor; auto; [now rewrite EE|].
    intros k' Hk'. unfold upd. destruct (bytes_eq_dec k k') as [<-|]; auto.
Qed.

Definition fresh (k : bytes) (op : coap_op) : node := set_op zero_node k op.

Lemma get_new : forall t dom f p k op, holds t dom f -> search_key p = Some k -> k <> [] -> ~ In k dom -> (length dom < N)%nat ->
  exists i t', get_coap_req bsearch qsort t p op = (Some i, t')
    /\ holds t' (k :: dom) (upd f k (fresh k op)) /\ nth_error (t_nodes t') i = Some (fresh k op).
Proof.
  intros t dom f p k op H Hp Hne Hk L. unfold get_coap_req. rewrite Hp, (search_absent t dom f k H Hk Hne).
  destruct (search_free _ _ _ H L) as (e & -> & He). rewrite (nth_error_nth' _ _ _ zero_node _ He). fold (fresh k op).
  set (nodes := qsort (set_nth e (t_nodes t) (fresh k op))).
  assert (H' : holds {| t_nodes := nodes; t_cnt := t_cnt t + 1 |} (k :: dom) (upd f k (fresh k op))).
  { constructor; cbn [t_nodes t_cnt].
    - apply (sort_sorted _ _ _ Lib).
    - unfold nodes. etransitivity; [apply (sort_perm _ _ _ Lib)|].
      cbn [map length]. rewrite upd_same, map_upd by assumption. cbn [app].
      apply (perm_set_nth _ _ _ _ zero_node); [exact He|]. etransitivity; [apply (h_perm _ _ _ H)|].
      replace (N - length dom)%nat with (S (N - S (length dom))) by lia. cbn [repeat]. symmetry. apply Permutation_middle.
    - constructor; [assumption|apply (h_nodup _ _ _ H)].
    - intros k' [<-|Hk']; [now rewrite upd_same|]. rewrite upd_other; [now apply (h_key _ _ _ H)|]. intro. subst. contradiction.
    - intros [E|E]; [congruence|exact (h_ne _ _ _ H E)].
    - cbn. lia.
    - rewrite (h_cnt _ _ _ H). unfold len. cbn [length]. lia. }
  destruct (search_present _ _ _ k H') as (i & Ei & Hi); [now left|]. cbn [t_nodes] in Ei, Hi. rewrite Ei.
  exists i, {| t_nodes := nodes; t_cnt := t_cnt t + 1 |}. split; [reflexivity|]. split; [exact H'|]. cbn [t_nodes]. now rewrite Hi, upd_same.
Qed.

Lemma get_refused : forall t dom f p k op, holds t dom f -> search_key p = Some k -> k <> [] -> ~ In k dom -> length dom = N ->
  get_coap_req bsearch qsort t p op = (None, t).
Proof.
  intros t dom f p k op H Hp Hne Hk L. unfold get_coap_req.
  rewrite Hp, (search_absent t dom f k H Hk Hne), (search_full t dom f H L). reflexivity.
Qed.

Lemma remove_present : forall t dom f k i, holds t dom f -> In k dom -> nth_error (t_nodes t) i = Some (f k) ->
  exists t', remove_coap_req bsearch qsort t (Some i) = (true, t') /\ holds t' (others k dom) f.
Proof.
  intros t dom f k i H Hk Hi. unfold remove_coap_req.
  assert (C : t_cnt t =? 0 = false).
  { rewrite (h_cnt _ _ _ H). destruct dom; [destruct Hk|]. unfold len. cbn. lia. }
  rewrite C, (nth_error_nth' _ _ _ zero_node _ Hi), (h_key _ _ _ H) by assumption.
  destruct (search_present _ _ _ _ H Hk) as (j & -> & Hj). eexists. split; [reflexivity|].
  pose proof (h_nodup _ _ _ H) as ND. pose proof (others_length k dom Hk ND) as LO. pose proof (h_room _ _ _ H).
  constructor; cbn [t_nodes t_cnt].
  - apply (sort_sorted _ _ _ Lib).
  - etransitivity; [apply (sort_perm _ _ _ Lib)|].
    etransitivity; [apply (perm_set_nth _ _ _ _ (f k) (map f (others k dom) ++ repeat zero_node (N - length dom))); [exact Hj|]|].
    + etransitivity; [apply (h_perm _ _ _ H)|]. now apply perm_focus.
    + replace (N - length (others k dom))%nat with (S (N - length dom)) by lia. cbn [repeat]. apply Permutation_middle.
  - now apply others_nodup.
  - intros k' Hk'. apply others_in in Hk' as [Hk' _]. now apply (h_key _ _ _ H).
  - intro E. apply others_in in E as [E _]. exact (h_ne _ _ _ H E).
  - lia.
  - rewrite (h_cnt _ _ _ H). unfold len. lia.
Qed.

End Table.
