(** Histories of CoAP events: every peer has its own request state. *)
From Coq Require Import String ZArith List Bool Lia ZifyBool ZifyNat Sorting.Sorted Sorting.Permutation.
From Verif Require Import Base Spec.Coap Spec.CoapHistory Model.CLib Model.EstErr Model.Codec Model.Coap Proofs.CoapTable.
Import ListNotations.
Open Scope Z_scope.

Section Run.
Variable bio : bool -> bytes -> Z -> bytes.

(** ** Keys do not change *)
Lemma bind_ok : forall (A B : Type) (x : res A) (f : A -> res B) y, bind x f = Ok y -> exists a, x = Ok a /\ f a = Ok y.
Proof. intros A B [a|] f y H; [exists a; auto|discriminate]. Qed.

Lemma store_key : forall n off d n', store n off d = Ok n' -> q_key n' = q_key n.
Proof.
  intros n off d n' H. unfold store in H. apply bind_ok in H as (b & _ & H). now inversion H.
Qed.
Lemma take_in_key : forall m n t, take_in m n = Ok t -> match t with TFail _ n' | TMore _ n' | TDone n' => q_key n' = q_key n end.
Proof.
  intros m n t H. unfold take_in in H. destruct (m_block1 m) as [b|].
  - destruct (payload m).
    + destruct (_ =? 0).
      * apply bind_ok in H as (n1 & S & H). apply store_key in S. destruct (b_more b); inversion H; exact S.
      * destruct (_ <? _); [now inversion H|]. destruct (_ <? _); [destruct (b_more b); now inversion H|].
        apply bind_ok in H as (n1 & S & H). apply store_key in S. destruct (b_more b); inversion H; exact S.
    + destruct (b_more b); now inversion H.
  - destruct (payload m).
    + apply bind_ok in H as (n1 & S & H). apply store_key in S. now inversion H.
    + destruct (negb _); now inversion H.
Qed.
Lemma keep_resp_key : forall n d k, keep_resp n d = Ok (Some k) -> q_key k = q_key n.
Proof.
  intros n d k H. unfold keep_resp in H. destruct (_ <? _); [discriminate|]. apply bind_ok in H as (b & _ & H). now inversion H.
Qed.

Lemma serve_key : forall m n r a n', serve bio m n = Ok (r, a, n') -> q_key n' = q_key n.
Proof.
  intros m n r a n' H. unfold serve in H. destruct (is_get (m_op m)).
  - unfold serve_get, answer, fail in H. destruct (negb _); [now inversion H|].
    destruct (est_coap_check_option _ _ _); try (now inversion H).
    destruct (negb (err_eqb _ _)); [now inversion H|]. destruct (o_text _); [|now inversion H].
    apply bind_ok in H as ([d|] & _ & H); [|now inversion H].
    apply bind_ok in H as ([k|] & K & H); [|now inversion H]. apply keep_resp_key in K. now inversion H; subst.
  - unfold serve_enroll, answer, fail in H. cbv zeta in H.
    match type of H with context [if ?c then reinit_coap_req n (m_op m) else n] =>
      set (n1 := if c then reinit_coap_req n (m_op m) else n) in H end.
    assert (E1 : q_key n1 = q_key n) by (unfold n1; now destruct (_ && _)). rewrite <- E1. clearbody n1. clear E1.
    destruct (negb (nth 0 (q_resp n1) 0 =? 0)); [now inversion H|].
    destruct (est_coap_check_option _ _ _); try (now inversion H).
    apply bind_ok in H as (t & T & H). apply take_in_key in T. destruct t as [c x|b x|x]; [now inversion H; subst|now inversion H; subst|].
    destruct (q_len x <=? 0); [now inversion H; subst|].
    apply bind_ok in H as ((l, blk) & _ & H). destruct (l <=? 0); [now inversion H; subst|].
    destruct (negb (err_eqb _ _)); [now inversion H; subst|].
    apply bind_ok in H as ([d|] & _ & H); [|now inversion H; subst].
    apply bind_ok in H as ([k|] & K & H); [|now inversion H; subst]. apply keep_resp_key in K. inversion H; subst. congruence.
Qed.

(** ** The state of one peer *)
Definition early (m : message) : option (reply * list action) :=
  if is_get (m_op m) then
    if negb (m_ssl m) then Some (code (match m_op m with OpAtt => 500 | _ => 401 end), [AEnd]) else None
  else
    match est_coap_check_option (m_opts m) COAP_OPTION_CONTENT_TYPE COAP_MEDIA_TYPE_PKCS10 with
    | EST_ERR_NONE => if negb (m_ssl m) then Some (code 401, [AEnd]) else if negb (m_cert m) then Some (code 401, [AEnd]) else None
    | EST_ERR_BAD_CONTENT_TYPE => Some (code 402, [])
    | EST_ERR_HTTP_BAD_REQ => Some (code 400, [])
    | _ => Some (code 500, [])
    end.

Definition opened (k : bytes) (op : coap_op) (c : option node) : node :=
  match c with Some n => refreshed n op | None => fresh k op end.

Definition cell_step (k : bytes) (e : event) (c : option node) : res (option reply * list action * option node) :=
  match e with
  | Connected _ => Ok (None, [], Some (opened k OpReset c))
  | Closed _ => Ok (None, [], None)
  | Message _ m =>
    match early m with
    | Some (r, a) => Ok (Some r, a, c)
    | None => ' (r, a, n) <- serve bio m (opened k (m_op m) c) ;; Ok (Some r, a, Some n)
    end
  end.

Fixpoint cell_run (k : bytes) (h : list event) (c : option node) : res (list (option reply * list action) * option node) :=
  match h with
  | [] => Ok ([], c)
  | e :: h' => ' (r, a, c1) <- cell_step k e c ;; ' (rs, c2) <- cell_run k h' c1 ;; Ok ((r, a) :: rs, c2)
  end.

Section Table.
Variable bsearch : bytes -> list node -> option nat.
Variable qsort : list node -> list node.
Hypothesis Lib : search_lib q_key bsearch qsort.
Variable N : nat.
Notation holds := (holds N).

Definition view (dom : list bytes) (f : bytes -> node) (k : bytes) : option node :=
  if in_dec bytes_eq_dec k dom then Some (f k) else None.
Definition next_dom (dom : list bytes) (k : bytes) (c : option node) : list bytes :=
  match c with None => others k dom | Some _ => if in_dec bytes_eq_dec k dom then dom else k :: dom end.
Definition next_f (f : bytes -> node) (k : bytes) (c : option node) : bytes -> node :=
  match c with None => f | Some n => upd f k n end.

Lemma view_same : forall dom f k c, view (next_dom dom k c) (next_f f k c) k = c.
Proof.
  intros dom f k [n|]; unfold view, next_dom, next_f.
  - destruct (in_dec bytes_eq_dec k dom) as [I|I].
    + destruct (in_dec bytes_eq_dec k dom); [now rewrite upd_same|contradiction].
    + destruct (in_dec bytes_eq_dec k (k :: dom)) as [_|X]; [now rewrite upd_same|]. destruct X. now left.
  - destruct (in_dec bytes_eq_dec k (others k dom)) as [X|_]; [|reflexivity]. now apply others_notin in X.
Qed.
Lemma in_next : forall dom k c k', k' <> k -> In k' (next_dom dom k c) <-> In k' dom.
Proof.
  intros dom k [n|] k' D; unfold next_dom.
  - destruct (in_dec bytes_eq_dec k dom); [tauto|]. cbn. intuition congruence.
  - rewrite others_in. tauto.
Qed.
Lemma view_other : forall dom f k c k', k' <> k -> view (next_dom dom k c) (next_f f k c) k' = view dom f k'.
Proof.
  intros dom f k c k' D. unfold view.
  destruct (in_dec bytes_eq_dec k' (next_dom dom k c)) as [I|I];
  destruct (in_dec bytes_eq_dec k' dom) as [I'|I']; try reflexivity.
  - f_equal. destruct c; unfold next_f; [apply upd_other; congruence|reflexivity].
  - rewrite in_next in I by assumption. contradiction.
  - rewrite in_next in I by assumption. contradiction.
Qed.

Lemma holds_same : forall t dom f, holds t dom f -> forall k, In k dom -> holds t dom (upd f k (f k)).
Proof.
  intros t dom f H k Hk. destruct H as [S P ND K NE R C].
  assert (EE : map (upd f k (f k)) dom = map f dom).
  { apply map_ext. intro k'. unfold upd. destruct (bytes_eq_dec k k') as [<-|]; reflexivity. }
  constructor; auto; [now rewrite EE|].
  intros k' Hk'. unfold upd. destruct (bytes_eq_dec k k') as [<-|]; auto.
Qed.
Lemma upd_upd : forall f k a b dom t, holds t dom (upd (upd f k a) k b) -> holds t dom (upd f k b).
Proof.
  intros f k a b dom t H.
  assert (E : forall k', upd (upd f k a) k b k' = upd f k b k').
  { intro k'. unfold upd. now destruct (bytes_eq_dec k k'). }
  destruct H as [S P ND K NE R C]. constructor; auto.
  - rewrite (map_ext _ _ E) in P. exact P.
  - intros k' Hk'. rewrite <- E. auto.
Qed.
Lemma holds_ext : forall t dom f g, (forall k, In k dom -> f k = g k) -> holds t dom f -> holds t dom g.
Proof.
  intros t dom f g E [S P ND K NE R C]. constructor; auto.
  - rewrite <- (map_ext_in _ _ _ E). exact P.
  - intros k Hk. rewrite <- E by assumption. auto.
Qed.

Lemma set_nth_same : forall (A : Type) (l : list A) i (v n : A), nth_error l i = Some n ->
  set_nth i (set_nth i l n) v = set_nth i l v.
Proof. induction l as [|x l IH]; intros [|i] v n H; try discriminate; cbn in *; [reflexivity|]. now rewrite (IH i v n). Qed.

(** get, when there is room *)
Lemma get_room : forall t dom f p k op, holds t dom f -> search_key p = Some k -> k <> [] ->
  In k dom \/ (length dom < N)%nat ->
  let n := opened k op (view dom f k) in
  exists i t', get_coap_req bsearch qsort t p op = (Some i, t')
    /\ holds t' (next_dom dom k (Some n)) (upd f k n) /\ nth_error (t_nodes t') i = Some n.
Proof.
  intros t dom f p k op H Hp Hne Hr n. unfold n, opened, view, next_dom. destruct (in_dec bytes_eq_dec k dom) as [I|I].
  - apply (get_present bsearch qsort Lib N); assumption.
  - apply (get_new bsearch qsort Lib N); try assumption. tauto.
Qed.

Lemma in_next_some : forall dom k n, In k (next_dom dom k (Some n)).
Proof. intros. unfold next_dom. destruct (in_dec bytes_eq_dec k dom); [assumption|now left]. Qed.
Lemma next_dom_some : forall dom k n n', next_dom dom k (Some n) = next_dom dom k (Some n').
Proof. reflexivity. Qed.
Lemma others_next : forall dom k n, others k (next_dom dom k (Some n)) = others k dom.
Proof.
  intros. unfold next_dom. destruct (in_dec bytes_eq_dec k dom); [reflexivity|]. unfold others. cbn.
  now destruct (bytes_eq_dec k k).
Qed.
Lemma opened_key : forall dom f t k op, holds t dom f -> q_key (opened k op (view dom f k)) = k.
Proof.
  intros dom f t k op H. unfold view, opened. destruct (in_dec bytes_eq_dec k dom); [|reflexivity].
  rewrite refreshed_key. now apply (h_key _ _ _ _ H).
Qed.

Lemma step_cell : forall t dom f e k, holds t dom f -> search_key (peer_of e) = Some k -> k <> [] ->
  In k dom \/ (length dom < N)%nat ->
  match cell_step k e (view dom f k) with
  | UB => step bio bsearch qsort e t = UB
  | Ok (r, a, c) => exists t', step bio bsearch qsort e t = Ok (r, a, t')
      /\ holds t' (next_dom dom k c) (next_f f k c)
  end.
Proof.
  intros t dom f e k H Hp Hne Hr. destruct e as [p|p|p m]; cbn [peer_of] in Hp; cbn [cell_step step].
  - destruct (get_room t dom f p k OpReset H Hp Hne Hr) as (i & t' & -> & H' & _). exists t'. split; [reflexivity|exact H'].
  - destruct (get_room t dom f p k OpReset H Hp Hne Hr) as (i & t' & -> & H' & Hi).
    set (n := opened k OpReset (view dom f k)) in *.
    destruct (remove_present bsearch qsort Lib N t' _ (upd f k n) k i H' (in_next_some dom k n)) as (t2 & R & H2).
    + now rewrite upd_same.
    + rewrite R. cbn. exists t2. split; [reflexivity|]. rewrite others_next in H2.
      cbn [next_dom next_f]. apply (holds_ext _ _ (upd f k n)); [|exact H2].
      intros k' Hk'. apply upd_other. intro. subst. now apply others_notin in Hk'.
  - unfold serve_message. cbv zeta. unfold early.
    set (go := match get_coap_req bsearch qsort t p (m_op m) with (None, t') => _ | (Some i, t') => _ end).
    assert (G : match (' (r, a, n) <- serve bio m (opened k (m_op m) (view dom f k)) ;; Ok (Some r, a, Some n)) with
                | UB => go = UB
                | Ok (r, a, c) => exists t', go = Ok (r, a, t') /\ holds t' (next_dom dom k c) (next_f f k c)
                end).
    { unfold go. destruct (get_room t dom f p k (m_op m) H Hp Hne Hr) as (i & t' & -> & H' & Hi).
      rewrite (nth_error_nth' _ _ _ zero_node _ Hi).
      pose proof (opened_key dom f t k (m_op m) H) as Ko.
      set (n := opened k (m_op m) (view dom f k)) in *.
      destruct (serve bio m n) as [((r, a), n')|] eqn:S; cbn [bind]; [|reflexivity].
      eexists. split; [reflexivity|]. apply serve_key in S.
      apply (upd_upd f k n n'). apply (holds_set N t' (next_dom dom k (Some n)) (upd f k n) k i n' H').
      - apply in_next_some.
      - now rewrite upd_same.
      - now rewrite S. }
    assert (R : forall (r : reply) (a : list action), exists t', Ok (Some r, a, t) = Ok (Some r, a, t') /\ holds t' (next_dom dom k (view dom f k)) (next_f f k (view dom f k))).
    { intros r a. exists t. split; [reflexivity|]. unfold view, next_dom, next_f.
      destruct (in_dec bytes_eq_dec k dom) as [I|I]; [now apply holds_same|].
      unfold others. rewrite notin_remove by assumption. exact H. }
    clearbody go. destruct (is_get (m_op m)); [destruct (negb (m_ssl m)); [apply R|exact G]|].
    destruct (est_coap_check_option _ _ _); try apply R.
    destruct (negb (m_ssl m)); [apply R|]. destruct (negb (m_cert m)); [apply R|exact G].
Qed.

(** When every entry is in use by another peer. *)
Lemma step_full : forall t dom f e k, holds t dom f -> search_key (peer_of e) = Some k -> k <> [] ->
  ~ In k dom -> length dom = N ->
  step bio bsearch qsort e t =
    match e with
    | Message _ m => match early m with Some (r, a) => Ok (Some r, a, t) | None => Ok (Some (code 500), [AEnd], t) end
    | _ => Ok (None, [], t)
    end.
Proof.
  intros t dom f e k H Hp Hne Hk L.
  assert (G : forall op, get_coap_req bsearch qsort t (peer_of e) op = (None, t)).
  { intro op. now apply (get_refused bsearch qsort Lib N t dom f _ k op). }
  destruct e as [p|p|p m]; cbn [peer_of] in *; cbn [step]; [now rewrite G|now rewrite G|].
  unfold serve_message, early. cbv zeta. rewrite G.
  destruct (is_get (m_op m)); [now destruct (negb (m_ssl m))|].
  destruct (est_coap_check_option _ _ _); try reflexivity. destruct (negb (m_ssl m)); [reflexivity|].
  now destruct (negb (m_cert m)).
Qed.

Lemma step_none : forall t e, search_key (peer_of e) = None ->
  step bio bsearch qsort e t =
    match e with
    | Message _ m => match early m with Some (r, a) => Ok (Some r, a, t) | None => Ok (Some (code 500), [AEnd], t) end
    | _ => Ok (None, [], t)
    end.
Proof.
  intros t e Hp.
  assert (G : forall op, get_coap_req bsearch qsort t (peer_of e) op = (None, t)).
  { intro op. unfold get_coap_req. now rewrite Hp. }
  destruct e as [p|p|p m]; cbn [peer_of] in *; cbn [step]; [now rewrite G|now rewrite G|].
  unfold serve_message, early. cbv zeta. rewrite G.
  destruct (is_get (m_op m)); [now destruct (negb (m_ssl m))|].
  destruct (est_coap_check_option _ _ _); try reflexivity. destruct (negb (m_ssl m)); [reflexivity|].
  now destruct (negb (m_cert m)).
Qed.

(** ** Histories *)
Lemma run_cons : forall e h t, run bio bsearch qsort (e :: h) t =
  (' (r, a, t1) <- step bio bsearch qsort e t ;; ' (rs, t2) <- run bio bsearch qsort h t1 ;; Ok ((r, a) :: rs, t2)).
Proof. reflexivity. Qed.

Variable ps : list peer.
Variable key : peer -> bytes.
Hypothesis Hkey : forall p, In p ps -> search_key p = Some (key p) /\ key p <> [].
Hypothesis Hinj : forall p q, In p ps -> In q ps -> key p = key q -> p = q.
Hypothesis Hnd : NoDup ps.

Lemma keys_nodup : NoDup (map key ps).
Proof.
  revert Hinj Hnd. clear Hkey. induction ps as [|p l IH]; intros Hi Hn; [constructor|]. inversion Hn as [|? ? Hp Hl]; subst.
  cbn. constructor.
  - intro E. apply in_map_iff in E as (q & E & Hq). apply Hp.
    rewrite <- (Hi q p); auto; [now right|now left].
  - apply IH; [|assumption]. intros a b Ha Hb. apply Hi; now right.
Qed.

Lemma peer_eqb_eq : forall p q, peer_eqb p q = true <-> p = q.
Proof.
  intros [a x] [b y]. unfold peer_eqb. cbn. rewrite andb_true_iff, Z.eqb_eq.
  assert (B : forall u v, beq u v = true <-> u = v).
  { induction u as [|c u IH]; destruct v as [|d v]; cbn; split; intro H; try reflexivity; try discriminate.
    - apply andb_true_iff in H as [E H]. apply Z.eqb_eq in E. apply IH in H. now subst.
    - inversion H; subst. rewrite Z.eqb_refl. now apply IH. }
  destruct x as [x|], y as [y|]; try rewrite B; intuition (subst; try congruence; try reflexivity).
Qed.

Lemma run_cells : (length ps <= N)%nat -> forall h t dom f rs t',
  holds t dom f -> incl dom (map key ps) -> (forall e, In e h -> In (peer_of e) ps) ->
  run bio bsearch qsort h t = Ok (rs, t') ->
  exists dom' f', holds t' dom' f' /\ incl dom' (map key ps) /\
  forall p, In p ps -> cell_run (key p) (filter (mine p) h) (view dom f (key p)) = Ok (answers_to (mine p) h rs, view dom' f' (key p)).
Proof.
  intros Hlen. induction h as [|e h IH]; intros t dom f rs t' H Hd He R.
  - inversion R; subst. exists dom, f. split; [exact H|]. split; [exact Hd|]. reflexivity.
  - rewrite run_cons in R. assert (He0 : In (peer_of e) ps) by (apply He; now left).
    destruct (Hkey _ He0) as (Hk & Hne). set (k := key (peer_of e)) in *.
    assert (Hroom : In k dom \/ (length dom < N)%nat).
    { destruct (in_dec bytes_eq_dec k dom) as [I|I]; [now left|right].
      assert (length (k :: dom) <= length (map key ps))%nat as L.
      { apply NoDup_incl_length; [constructor; [assumption|apply (h_nodup _ _ _ _ H)]|].
        intros x [<-|Hx]; [unfold k; now apply in_map|now apply Hd]. }
      rewrite map_length in L. cbn in L. lia. }
    pose proof (step_cell t dom f e k H Hk Hne Hroom) as SC.
    destruct (cell_step k e (view dom f k)) as [((r, a), c)|] eqn:CS; [|rewrite SC in R; discriminate].
    destruct SC as (t1 & S1 & H1). rewrite S1 in R. cbn [bind] in R.
    destruct (run bio bsearch qsort h t1) as [(rs1, t2)|] eqn:R1; cbn [bind] in R; [|discriminate].
    inversion R; subst rs t'. clear R.
    assert (Hd1 : incl (next_dom dom k c) (map key ps)).
    { intros x Hx. destruct (bytes_eq_dec x k) as [->|D]; [unfold k; now apply in_map|]. apply in_next in Hx; auto. }
    destruct (IH t1 (next_dom dom k c) (next_f f k c) rs1 t2 H1 Hd1) as (dom' & f' & H' & Hd' & C); [|exact R1|].
    { intros e' He'. apply He. now right. }
    exists dom', f'. split; [exact H'|]. split; [exact Hd'|].
    intros p Hp. specialize (C p Hp). unfold answers_to. cbn [combine filter fst].
    destruct (mine p e) eqn:M.
    + apply peer_eqb_eq in M. subst p. fold k. cbn [cell_run map snd]. rewrite CS. cbn [bind].
      fold k in C. rewrite view_same in C. rewrite C. reflexivity.
    + assert (D : key p <> k).
      { intro E. apply Hinj in E; auto. rewrite E in M. unfold mine in M.
        assert (T : peer_eqb (peer_of e) (peer_of e) = true) by now apply peer_eqb_eq. congruence. }
      rewrite view_other in C by assumption. exact C.
Qed.

(** One peer alone. *)
Lemma run_alone : (1 <= N)%nat -> forall p, In p ps -> forall h t dom f,
  holds t dom f -> incl dom [key p] -> (forall e, In e h -> peer_of e = p) ->
  match cell_run (key p) h (view dom f (key p)) with
  | UB => run bio bsearch qsort h t = UB
  | Ok (rs, c) => exists t' dom' f', run bio bsearch qsort h t = Ok (rs, t') /\ holds t' dom' f' /\ view dom' f' (key p) = c
  end.
Proof.
  intros HN p Hp. destruct (Hkey p Hp) as (Hk & Hne). induction h as [|e h IH]; intros t dom f H Hd He.
  - cbn. exists t, dom, f. auto.
  - cbn [cell_run]. rewrite run_cons. assert (E : peer_of e = p) by (apply He; now left).
    assert (Hroom : In (key p) dom \/ (length dom < N)%nat).
    { destruct (in_dec bytes_eq_dec (key p) dom) as [I|I]; [now left|right].
      destruct dom as [|x dom]; [cbn; lia|]. exfalso. apply I. destruct (Hd x (or_introl eq_refl)) as [<-|[]]. now left. }
    assert (Hk' : search_key (peer_of e) = Some (key p)) by now rewrite E.
    pose proof (step_cell t dom f e (key p) H Hk' Hne Hroom) as SC.
    destruct (cell_step (key p) e (view dom f (key p))) as [((r, a), c)|]; cbn [bind]; [|now rewrite SC].
    destruct SC as (t1 & -> & H1). cbn [bind].
    assert (Hd1 : incl (next_dom dom (key p) c) [key p]).
    { intros x Hx. destruct (bytes_eq_dec x (key p)) as [->|D]; [now left|]. apply in_next in Hx; auto. }
    specialize (IH t1 _ _ H1 Hd1). rewrite view_same in IH.
    assert (He' : forall e', In e' h -> peer_of e' = p) by (intros; apply He; now right). specialize (IH He').
    destruct (cell_run (key p) h c) as [(rs, c2)|]; cbn [bind]; [|now rewrite IH].
    destruct IH as (t' & dom' & f' & -> & H' & V). cbn [bind]. exists t', dom', f'. auto.
Qed.

(** Everyone's answers are those they would get alone. *)
Lemma isolated : (length ps <= N)%nat -> forall h p rs t', In p ps -> (forall e, In e h -> In (peer_of e) ps) ->
  run bio bsearch qsort h (est_coap_init_req_array (Z.of_nat N)) = Ok (rs, t') ->
  exists t2, run bio bsearch qsort (filter (mine p) h) (est_coap_init_req_array (Z.of_nat N)) = Ok (answers_to (mine p) h rs, t2).
Proof.
  intros Hl h p rs t' Hp He R.
  destruct (run_cells Hl h _ [] (fun _ => zero_node) rs t' (init_holds N _) (incl_nil_l _) He R) as (dom' & f' & _ & _ & C).
  specialize (C p Hp).
  assert (HN : (1 <= N)%nat). { destruct ps; [destruct Hp|cbn in Hl; lia]. }
  pose proof (run_alone HN p Hp (filter (mine p) h) _ [] (fun _ => zero_node) (init_holds N _) (incl_nil_l _)) as A.
  rewrite C in A. destruct A as (t2 & _ & _ & A & _).
  - intros e Hf. apply filter_In in Hf as [_ M]. apply peer_eqb_eq in M. now symmetry.
  - exists t2. exact A.
Qed.

(** ** How many entries are in use *)
Definition opening (e : event) : option peer :=
  match e with
  | Connected p => Some p
  | Closed _ => None
  | Message p m => match early m with Some _ => None | None => Some p end
  end.
Lemma run_count : forall h t dom f act rs t',
  holds t dom f -> Permutation dom (map key act) -> incl act ps -> NoDup act ->
  (forall e, In e h -> In (peer_of e) ps) ->
  run bio bsearch qsort h t = Ok (rs, t') ->
  exists dom' f', let act' := fold_left (session_step event peer peer_eqb opening closes (Z.of_nat N)) h act in
    holds t' dom' f' /\ Permutation dom' (map key act') /\ incl act' ps /\ NoDup act'.
Proof.
  induction h as [|e h IH]; intros t dom f act rs t' H P Hi Ha He R.
  - inversion R; subst. exists dom, f. cbn. auto.
  - rewrite run_cons in R. assert (He0 : In (peer_of e) ps) by (apply He; now left).
    destruct (Hkey _ He0) as (Hk & Hne). set (p := peer_of e) in *. set (k := key p) in *.
    assert (He' : forall e', In e' h -> In (peer_of e') ps) by (intros; apply He; now right).
    assert (IN : In k dom <-> In p act).
    { split; intro X.
      - apply (Permutation_in _ P) in X. apply in_map_iff in X as (q & E & Hq). unfold k in E.
        apply Hinj in E; auto. now subst.
      - apply (Permutation_in _ (Permutation_sym P)). unfold k. now apply in_map. }
    assert (EX : existsb (peer_eqb p) act = true <-> In p act).
    { rewrite existsb_exists. split.
      - intros (q & Hq & E). apply peer_eqb_eq in E. now subst.
      - intro X. exists p. split; [assumption|now apply peer_eqb_eq]. }
    assert (LL : length dom = length act) by (rewrite (Permutation_length P), map_length; reflexivity).
    assert (FO : Permutation (others k dom) (map key (filter (fun q => negb (peer_eqb p q)) act))).
    { assert (E : map key (filter (fun q => negb (peer_eqb p q)) act) = others k (map key act)).
      { clear - Hi Hinj He0. unfold k, others. induction act as [|q act IHa]; [reflexivity|].
        assert (Hi' : incl act ps) by (intros x Hx; apply Hi; now right).
        cbn. destruct (peer_eqb p q) eqn:E.
        - apply peer_eqb_eq in E. subst q. destruct (bytes_eq_dec (key p) (key p)); [|congruence]. now apply IHa.
        - destruct (bytes_eq_dec (key p) (key q)) as [D|D].
          + apply Hinj in D; [|assumption|apply Hi; now left]. subst q.
            assert (peer_eqb p p = true) by now apply peer_eqb_eq. congruence.
          + cbn. f_equal. now apply IHa. }
      rewrite E. unfold others. clear - P. induction P; cbn; try constructor.
      - destruct (bytes_eq_dec k x); [exact IHP|now constructor].
      - destruct (bytes_eq_dec k x), (bytes_eq_dec k y); try reflexivity. apply perm_swap.
      - eapply Permutation_trans; eassumption. }
    assert (NF : NoDup (filter (fun q => negb (peer_eqb p q)) act)) by now apply NoDup_filter.
    assert (IF : incl (filter (fun q => negb (peer_eqb p q)) act) ps).
    { intros x Hx. apply filter_In in Hx as [Hx _]. auto. }
    cbn [fold_left].
    destruct (in_dec bytes_eq_dec k dom) as [Ik|Ik]; [|destruct (Nat.eq_dec (length dom) N) as [L|L]].
    + (* known *)
      pose proof (step_cell t dom f e k H Hk Hne (or_introl Ik)) as SC.
      destruct (cell_step k e (view dom f k)) as [((r, a), c)|] eqn:CS; [|rewrite SC in R; discriminate].
      destruct SC as (t1 & S1 & H1). rewrite S1 in R. cbn [bind] in R.
      destruct (run bio bsearch qsort h t1) as [(rs1, t2)|] eqn:R1; cbn [bind] in R; [|discriminate].
      inversion R; subst rs t'. clear R.
      assert (Ip : existsb (peer_eqb p) act = true) by (apply EX; tauto).
      refine (IH t1 (next_dom dom k c) (next_f f k c) _ rs1 t2 H1 _ _ _ He' R1);
      unfold session_step; destruct e as [q|q|q m]; cbn [peer_of] in p; subst p; cbn [closes opening].
      all: cbn [cell_step] in CS.
      * inversion CS; subst. cbn [next_dom]. destruct (in_dec bytes_eq_dec k dom); [|contradiction]. now rewrite Ip.
      * inversion CS; subst. exact FO.
      * assert (C : exists n, c = Some n).
        { unfold view in CS. destruct (in_dec bytes_eq_dec k dom); [|contradiction].
          destruct (early m) as [(r0, a0)|]; [inversion CS; eauto|]. apply bind_ok in CS as (((r1, a1), n1) & _ & CS). inversion CS; eauto. }
        destruct C as (n & ->). cbn [next_dom]. destruct (in_dec bytes_eq_dec k dom); [|contradiction].
        destruct (early m); [exact P|now rewrite Ip].
      * now rewrite Ip.
      * exact IF.
      * destruct (early m); [exact Hi|now rewrite Ip].
      * now rewrite Ip.
      * exact NF.
      * destruct (early m); [exact Ha|now rewrite Ip].
    + (* full *)
      pose proof (step_full t dom f e k H Hk Hne Ik L) as SF.
      assert (S1 : exists r a, step bio bsearch qsort e t = Ok (r, a, t)).
      { rewrite SF. destruct e as [q|q|q m]; eauto. destruct (early m) as [(r, a)|]; eauto. }
      destruct S1 as (r & a & S1). rewrite S1 in R. cbn [bind] in R.
      destruct (run bio bsearch qsort h t) as [(rs1, t2)|] eqn:R1; cbn [bind] in R; [|discriminate].
      inversion R; subst rs t'. clear R.
      assert (Ip : existsb (peer_eqb p) act = false).
      { apply not_true_is_false. intro X. apply EX in X. tauto. }
      assert (Ln : len act <? Z.of_nat N = false) by (unfold len; lia).
      assert (NP : ~ In p act) by tauto.
      refine (IH t dom f _ rs1 t2 H _ _ _ He' R1);
      unfold session_step; destruct e as [q|q|q m]; cbn [peer_of] in p; subst p; cbn [closes opening].
      * rewrite Ip, Ln. exact P.
      * unfold others in FO. now rewrite notin_remove in FO.
      * destruct (early m); [exact P|]. now rewrite Ip, Ln.
      * now rewrite Ip, Ln.
      * exact IF.
      * destruct (early m); [exact Hi|]. now rewrite Ip, Ln.
      * now rewrite Ip, Ln.
      * exact NF.
      * destruct (early m); [exact Ha|]. now rewrite Ip, Ln.
    + (* new *)
      assert (L' : (length dom < N)%nat) by (pose proof (h_room _ _ _ _ H); lia).
      pose proof (step_cell t dom f e k H Hk Hne (or_intror L')) as SC.
      destruct (cell_step k e (view dom f k)) as [((r, a), c)|] eqn:CS; [|rewrite SC in R; discriminate].
      destruct SC as (t1 & S1 & H1). rewrite S1 in R. cbn [bind] in R.
      destruct (run bio bsearch qsort h t1) as [(rs1, t2)|] eqn:R1; cbn [bind] in R; [|discriminate].
      inversion R; subst rs t'. clear R.
      assert (Ip : existsb (peer_eqb p) act = false).
      { apply not_true_is_false. intro X. apply EX in X. tauto. }
      assert (Ln : len act <? Z.of_nat N = true) by (unfold len; lia).
      assert (NP : ~ In p act) by tauto.
      assert (Pc : Permutation (k :: dom) (map key (p :: act))) by (cbn; now constructor).
      assert (Ic : incl (p :: act) ps) by (intros x [<-|Hx]; auto).
      assert (Nc : NoDup (p :: act)) by now constructor.
      refine (IH t1 (next_dom dom k c) (next_f f k c) _ rs1 t2 H1 _ _ _ He' R1);
      unfold session_step; destruct e as [q|q|q m]; cbn [peer_of] in p; subst p; cbn [closes opening].
      all: cbn [cell_step] in CS.
      * inversion CS; subst. cbn [next_dom]. destruct (in_dec bytes_eq_dec k dom); [contradiction|]. now rewrite Ip, Ln.
      * inversion CS; subst. exact FO.
      * destruct (early m) as [(r0, a0)|].
        -- inversion CS; subst. unfold view. destruct (in_dec bytes_eq_dec k dom); [contradiction|]. cbn [next_dom].
           unfold others. now rewrite notin_remove.
        -- apply bind_ok in CS as (((r1, a1), n1) & _ & CS). inversion CS; subst. cbn [next_dom].
           destruct (in_dec bytes_eq_dec k dom); [contradiction|]. now rewrite Ip, Ln.
      * now rewrite Ip, Ln.
      * exact IF.
      * destruct (early m); [exact Hi|]. now rewrite Ip, Ln.
      * now rewrite Ip, Ln.
      * exact NF.
      * destruct (early m); [exact Ha|]. now rewrite Ip, Ln.
Qed.

End Table.
End Run.
