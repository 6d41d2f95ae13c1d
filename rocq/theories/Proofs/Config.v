(** Proofs about Model/Config.v *)
From Coq Require Import String ZArith List Bool Lia ZifyBool ZifyNat.
From Verif Require Import Base Spec.Base64 Spec.Der Spec.Config Model.EstErr Model.AuthHdr Model.Server Model.CsrAttrs Model.Config
  Proofs.EstErr Proofs.Codec Proofs.CsrAttrs.
Import ListNotations.
Open Scope Z_scope.

Section P.
Variable G : bytes -> option header.
Variable bio : bool -> bytes -> Z -> bytes.
Local Notation step := (Config.step G bio).
Local Notation calls := (Config.calls G bio).

Lemma next_slot_lt : forall l i, next_slot l = Some i -> (i < length l)%nat.
Proof.
  induction l as [|s l IH]; intros i H; [discriminate|]. cbn in *. destruct (sl_store s); [|inversion H; lia].
  destruct (next_slot l) as [j|]; [|discriminate]. inversion H. specialize (IH j eq_refl). lia.
Qed.
Lemma put_length : forall (l : list slot) i s, (i < length l)%nat -> length (firstn i l ++ s :: skipn (S i) l) = length l.
Proof. intros. rewrite app_length, firstn_length. cbn [length]. rewrite skipn_length. lia. Qed.
Lemma load_length : forall nid certs a e a2 l e' l', est_load_manufacturer nid certs a e a2 l = (e', l') -> length l' = length l.
Proof.
  intros * H. unfold est_load_manufacturer in H. destruct (next_slot l) as [i|] eqn:E; [|now inversion H].
  apply next_slot_lt in E. destruct (negb a); [|destruct (negb _); [|destruct (negb a2)]]; inversion H; now apply put_length.
Qed.

Ltac steps H :=
  repeat match type of H with
  | context [if ?b then _ else _] => destruct b eqn:?
  | context [match ?x with Some _ => _ | None => _ end] => destruct x eqn:?
  | context [match ?x with EST_SERVER => _ | _ => _ end] => destruct x eqn:?
  | context [match ?x with CbEnroll => _ | _ => _ end] => destruct x eqn:?
  end.

Lemma step_limits : forall o c e c', within_limits c -> step o c = Ok (e, c') -> within_limits c'.
Proof.
  intros o c e c' L H. destruct L as [L1 L2 L3 L4 L5 L6 L7 L8 L9 L10 L11].
  destruct o; cbn [Config.step] in H;
    unfold est_server_set_auth_mode, est_server_enable_enhanced_cert_auth, est_server_set_dtls_session_max,
      est_server_coap_init_start, est_set_callback in H; cbv zeta in H.
  4:{ (* AddMfg *)
    unfold est_server_add_mfg_info in H. destruct certs as [ce|]; [|inversion H; subst; constructor; auto].
    destruct (_ || _); [inversion H; subst; constructor; auto|]. destruct (negb _); [inversion H; subst; constructor; auto|].
    assert (K : forall l, length l = 4%nat -> (let '(e, l') := est_load_manufacturer nid ce alloc_store load alloc_ctx l in (e, set_mfgs (Some l') c)) = (e, c') -> within_limits c').
    { intros l Hl Q. destruct (est_load_manufacturer _ _ _ _ _ _) as [e1 l1] eqn:E. apply load_length in E. inversion Q; subst.
      constructor; cbn; auto. intros l2 Q2. inversion Q2. subst. congruence. }
    destruct (x_mfgs c) as [l|] eqn:Em; [apply (K l); [now apply L7|congruence]|].
    destruct alloc_list; [apply (K (repeat no_slot 4)); [reflexivity|congruence]|]. inversion H; subst; constructor; auto; intros; congruence. }
  11:{ (* InitCsrattrs *)
    steps H; try (inversion H; subst; constructor; auto; fail).
    destruct (est_server_init_csrattrs _ _ _ _) as [[e1 a]|]; cbn [bind] in H; [|discriminate]. inversion H; subst. constructor; auto. }
  all: steps H; inversion H; subst; constructor; cbn; auto; try lia; try discriminate.
  all: try (right; left; reflexivity); try (right; right; left; reflexivity); auto.
Qed.
Lemma init_limits : forall a1 a2 a3 a4 a5 a6 a7 a8 a9 a10 a11 c,
  est_server_init a1 a2 a3 a4 a5 a6 a7 a8 a9 a10 a11 = Some c -> within_limits c.
Proof.
  intros * H. unfold est_server_init in H. steps H; try discriminate; match type of H with Some ?x = Some c => assert (Ec : x = c) by congruence end; rewrite <- Ec; clear H Ec; constructor;
    cbn [x_auth_mode x_realm x_retry x_brski_retry x_read_timeout x_pwd x_mfgs x_dtls_timer x_mtu x_sessions x_port]; try lia; try discriminate.
  all: first [now left|rewrite len_firstn; lia|cbn; lia].
Qed.
Lemma calls_limits : forall os c h c', within_limits c -> calls os c = Ok (h, c') -> within_limits c'.
Proof.
  induction os as [|o os IH]; intros c h c' L H; cbn in H; [now inversion H; subst|].
  destruct (step o c) as [[e c1]|] eqn:E; cbn [bind] in H; [|discriminate].
  destruct (calls os c1) as [[h1 c2]|] eqn:E2; cbn [bind] in H; [|discriminate]. inversion H; subst.
  eapply IH; [|exact E2]. eapply step_limits; eauto.
Qed.

Lemma step_valid : forall o c, depends_on_state o = false ->
  (valid_argument o -> exists c', step o c = Ok (EST_ERR_NONE, c'))
  /\ (~ valid_argument o -> exists e, e <> EST_ERR_NONE /\ step o c = Ok (e, c)).
Proof.
  intros o c D. destruct o; cbn [depends_on_state] in D; try discriminate; cbn [Config.step valid_argument];
    unfold est_server_set_auth_mode;
    (split; intro V; [|try (exfalso; apply V; exact I)]);
    repeat match goal with |- context [if ?b then _ else _] => destruct b eqn:? end;
    try (eexists; reflexivity); try (eexists; split; [|reflexivity]; discriminate); try (exfalso; subst; intuition (congruence || lia)).
Qed.

(** Settings. *)
Lemma setting_cons : forall A (d : A) f o e h, setting d f ((o, e) :: h) = setting (match f o, e with Some a, EST_ERR_NONE => a | _, _ => d end) f h.
Proof. reflexivity. Qed.
Lemma setting_calls : forall A (proj : ctx -> A) (sets : op -> option A),
  (forall o c e c', step o c = Ok (e, c') -> proj c' = match sets o, e with Some a, EST_ERR_NONE => a | _, _ => proj c end) ->
  forall os c h c', calls os c = Ok (h, c') -> proj c' = setting (proj c) sets h.
Proof.
  intros A proj sets K. induction os as [|o os IH]; intros c h c' H; cbn in H; [now inversion H; subst|].
  destruct (step o c) as [[e c1]|] eqn:E; cbn [bind] in H; [|discriminate].
  destruct (calls os c1) as [[h1 c2]|] eqn:E2; cbn [bind] in H; [|discriminate]. inversion H; subst.
  rewrite setting_cons, (IH _ _ _ E2). now rewrite (K _ _ _ _ E).
Qed.
Ltac setting_tac :=
  let o := fresh "o" in let c := fresh "c" in let e := fresh "e" in let c' := fresh "c'" in let H := fresh "H" in
  intros o c e c' H; destruct o; cbn [Config.step] in H;
    unfold est_server_set_auth_mode, est_server_enable_enhanced_cert_auth, est_server_set_dtls_session_max,
      est_server_coap_init_start, est_set_callback, est_server_add_mfg_info in H; cbv zeta in H; steps H;
  try match type of H with context [est_server_init_csrattrs ?a ?b ?x ?y] =>
     destruct (est_server_init_csrattrs a b x y) as [[? ?]|]; cbn [bind] in H; [|discriminate] end;
  repeat match type of H with context [est_load_manufacturer ?a ?b ?x ?y ?z ?w] => destruct (est_load_manufacturer a b x y z w) as [? ?] end;
  inversion H; subst; try reflexivity; try (destruct e; reflexivity); try (cbn; congruence);
  try (cbn; repeat (destruct (cb_eq_dec _ _)); congruence).
Lemma settings : forall os c h c', calls os c = Ok (h, c') ->
  x_auth_mode c' = setting (x_auth_mode c) sets_auth h
  /\ x_required c' = setting (x_required c) sets_required h
  /\ x_retry c' = setting (x_retry c) sets_retry h
  /\ x_brski_retry c' = setting (x_brski_retry c) sets_brski h
  /\ x_read_timeout c' = setting (x_read_timeout c) sets_read h
  /\ x_dtls_timer c' = setting (x_dtls_timer c) sets_timer h
  /\ x_mtu c' = setting (x_mtu c) sets_mtu h
  /\ x_pop c' = setting (x_pop c) sets_pop h
  /\ x_enforce c' = setting (x_enforce c) sets_enforce h
  /\ x_eca c' = setting (x_eca c) sets_eca h
  /\ x_csr_check c' = setting (x_csr_check c) sets_csr_check h
  /\ x_srp c' = setting (x_srp c) sets_srp h
  /\ x_curve c' = setting (x_curve c) sets_curve h
  /\ x_transport c' = setting (x_transport c) sets_transport h
  /\ (forall cb, x_cbs c' cb = setting (x_cbs c cb) (sets_callback cb) h)
  /\ x_realm c' = x_realm c /\ x_mode c' = x_mode c /\ x_cacerts c' = x_cacerts c.
Proof.
  intros os c h c' H.
  assert (KA : forall A (proj : ctx -> A), (forall o c e c', step o c = Ok (e, c') -> proj c' = proj c) -> proj c' = proj c).
  { intros A proj K. rewrite (setting_calls A proj (fun _ => None)) with (2 := H); [|intros; erewrite K by eauto; now destruct e].
    unfold setting. clear. induction h as [|[o e] h IH]; [reflexivity|exact IH]. }
  repeat match goal with |- _ /\ _ => split end;
    first [ intro cb; apply (setting_calls _ (fun c => x_cbs c cb) (sets_callback cb)) with (2 := H)
          | match goal with |- ?p c' = setting (?p c) ?f h => apply (setting_calls _ p f) with (2 := H) end
          | match goal with |- ?p c' = ?p c => apply (KA _ p) end ].
  all: try (setting_tac; fail).
  - intros o c0 e c1 Q. destruct o; cbn [Config.step] in Q;
    unfold est_server_set_auth_mode, est_server_enable_enhanced_cert_auth, est_server_set_dtls_session_max,
      est_server_coap_init_start, est_server_add_mfg_info in Q; cbv zeta in Q.
    1:{ steps Q; inversion Q; subst; cbn; unfold mode_code; try rewrite Heqb; try rewrite Heqb0; try rewrite Heqb1; try reflexivity.
        all: repeat match goal with |- context [if ?b then _ else _] => destruct b eqn:? end; auto; lia. }
    all: revert Q; clear; intro Q; unfold est_set_callback in Q; steps Q;
      try match type of Q with context [est_server_init_csrattrs ?a ?b ?x ?y] =>
       destruct (est_server_init_csrattrs a b x y) as [[? ?]|]; cbn [bind] in Q; [|discriminate] end;
      repeat match type of Q with context [est_load_manufacturer ?a ?b ?x ?y ?z ?w] => destruct (est_load_manufacturer a b x y z w) as [? ?] end;
      inversion Q; subst; reflexivity.
Qed.

(** Manufacturers. *)
Definition full (m : Z * bytes) : slot := {| sl_store := Some (snd m); sl_ctx := true; sl_nid := fst m |}.
Definition filled (l : list slot) (u : list (Z * bytes)) : Prop :=
  length l = 4%nat /\ exists rest, l = map full u ++ rest /\ Forall (fun s => sl_store s = None) rest.
Definition mfg_inv (c : ctx) (u : list (Z * bytes)) : Prop :=
  match x_mfgs c with Some l => filled l u | None => u = [] end.

Lemma next_filled : forall u rest, Forall (fun s => sl_store s = None) rest ->
  next_slot (map full u ++ rest) = match rest with [] => None | _ => Some (length u) end.
Proof.
  induction u as [|m u IH]; intros rest F; cbn.
  - destruct rest as [|s rest]; [reflexivity|]. inversion F as [|? ? E _]; subst. cbn. now rewrite E.
  - rewrite IH by assumption. destruct rest; reflexivity.
Qed.
Lemma load_filled : forall nid certs a e a2 l u e' l', filled l u -> est_load_manufacturer nid certs a e a2 l = (e', l') ->
  filled l' (if err_eqb e' EST_ERR_NONE && Nat.ltb (length u) 4 then u ++ [(nid, certs)] else u)
  /\ (e' <> EST_ERR_NONE -> map slot_view l' = map slot_view l).
Proof.
  intros * [L (rest & -> & F)] H. unfold est_load_manufacturer in H. rewrite next_filled in H by exact F.
  rewrite app_length, map_length in L. destruct rest as [|s rest].
  - inversion H; subst. split; [|congruence].
    replace (Nat.ltb (length u) 4) with false by (symmetry; apply Nat.ltb_ge; cbn in L; lia). rewrite andb_false_r.
    split; [rewrite app_length, map_length; exact L|]. exists []. auto.
  - cbv zeta in H. inversion F as [|? ? Es Fr]; subst. cbn [length] in L.
    replace (Nat.ltb (length u) 4) with true by (symmetry; apply Nat.ltb_lt; lia). rewrite andb_true_r.
    assert (P : forall x, firstn (length u) (map full u ++ s :: rest) ++ x :: skipn (S (length u)) (map full u ++ s :: rest) = map full u ++ x :: rest).
    { intro x. rewrite firstn_app, map_length, Nat.sub_diag. cbn [firstn]. rewrite app_nil_r, firstn_all2 by (rewrite map_length; lia). do 2 f_equal.
      rewrite skipn_app, map_length, skipn_all2 by (rewrite map_length; lia). replace (S (length u) - length u)%nat with 1%nat by lia. reflexivity. }
    assert (KO : forall x er, sl_store x = None -> er <> EST_ERR_NONE -> (er, firstn (length u) (map full u ++ s :: rest) ++ x :: skipn (S (length u)) (map full u ++ s :: rest)) = (e', l') ->
      filled l' (if err_eqb e' EST_ERR_NONE then u ++ [(nid, certs)] else u) /\ (e' <> EST_ERR_NONE -> map slot_view l' = map slot_view (map full u ++ s :: rest))).
    { intros x er Ex Ne Q. rewrite P in Q. inversion Q; subst. replace (err_eqb e' EST_ERR_NONE) with false.
      - split; [split; [rewrite app_length, map_length; cbn; lia|exists (x :: rest); auto]|]. intros _. rewrite !map_app. cbn [map]. do 2 f_equal.
        unfold slot_view, usable. now rewrite Ex, Es.
      - symmetry. destruct (err_eqb e' EST_ERR_NONE) eqn:Q2; [apply err_eqb_eq in Q2; congruence|reflexivity]. }
    destruct (negb a); [eapply KO in H; eauto; discriminate|].
    destruct (err_eqb e EST_ERR_NONE) eqn:Ee; cbn [negb] in H.
    2:{ eapply KO in H; eauto. intro Q. rewrite Q in Ee. vm_compute in Ee. discriminate. }
    destruct (negb a2); [eapply KO in H; eauto; discriminate|].
    rewrite P in H. inversion H; subst. split; [|congruence]. change (err_eqb EST_ERR_NONE EST_ERR_NONE) with true. cbv iota.
    split; [rewrite app_length, map_length; cbn; lia|]. exists rest. split; [|exact Fr]. rewrite map_app, <- app_assoc. reflexivity.
Qed.
Lemma none_match : forall (A : Type) (e : est_error) (a b : A), match e with EST_ERR_NONE => a | _ => b end = if err_eqb e EST_ERR_NONE then a else b.
Proof. intros A e a b. destruct e; reflexivity. Qed.
Definition mfg_step (l : list (Z * bytes)) (oe : op * est_error) : list (Z * bytes) :=
  match oe with
  | (AddMfg _ nid (Some certs) _ _ _ _ _, EST_ERR_NONE) => if Nat.ltb (length l) 4 then l ++ [(nid, certs)] else l
  | (DisableEca, EST_ERR_NONE) => []
  | _ => l
  end.
Lemma other_mfgs : forall o c e c', step o c = Ok (e, c') ->
  match o with AddMfg _ _ _ _ _ _ _ _ => True | DisableEca => True | _ => x_mfgs c' = x_mfgs c end.
Proof.
  intros o c e c' H. destruct o; try exact I; cbn [Config.step] in H;
    unfold est_server_set_auth_mode, est_server_enable_enhanced_cert_auth, est_server_set_dtls_session_max,
      est_server_coap_init_start, est_set_callback in H; cbv zeta in H; steps H;
  try match type of H with context [est_server_init_csrattrs ?a ?b ?x ?y] =>
     destruct (est_server_init_csrattrs a b x y) as [[? ?]|]; cbn [bind] in H; [|discriminate] end;
  inversion H; subst; reflexivity.
Qed.
Lemma step_mfgs : forall o c e c' u, mfg_inv c u -> (x_eca c = false -> x_mfgs c = None) -> step o c = Ok (e, c') ->
  mfg_inv c' (mfg_step u (o, e)) /\ (x_eca c' = false -> x_mfgs c' = None).
Proof.
  intros o c e c' u I J H. pose proof (other_mfgs _ _ _ _ H) as OM.
  assert (EC : x_eca c' = match sets_eca o, e with Some a, EST_ERR_NONE => a | _, _ => x_eca c end).
  { pose proof (settings [o] c [(o, e)] c') as S. cbn [Config.calls] in S. rewrite H in S. cbn [bind] in S. specialize (S eq_refl).
    destruct S as (_ & _ & _ & _ & _ & _ & _ & _ & _ & S & _). exact S. }
  unfold mfg_inv in *.
  destruct o; cbn [mfg_step sets_eca] in *; try (rewrite OM, EC; split; [exact I|exact J]).
  - rewrite OM. split; [exact I|]. intro Q. apply J. rewrite none_match in EC. destruct (err_eqb e EST_ERR_NONE); congruence.
  - clear OM. cbn [Config.step] in H. unfold est_server_add_mfg_info in H.
    assert (SAME : c' = c -> (e = EST_ERR_NONE -> False) -> match x_mfgs c' with Some l => filled l (mfg_step u (AddMfg name nid certs certs_len alloc_list alloc_store load alloc_ctx, e)) | None => mfg_step u (AddMfg name nid certs certs_len alloc_list alloc_store load alloc_ctx, e) = [] end
       /\ (x_eca c' = false -> x_mfgs c' = None)).
    { intros -> Ne. assert (Em : mfg_step u (AddMfg name nid certs certs_len alloc_list alloc_store load alloc_ctx, e) = u).
      { cbn. destruct certs; [|reflexivity]. rewrite none_match. destruct (err_eqb e EST_ERR_NONE) eqn:Q; [apply err_eqb_eq in Q; contradiction|reflexivity]. }
      rewrite Em. split; [exact I|exact J]. }
    destruct certs as [ce|]; [|inversion H; subst; apply SAME; auto; discriminate].
    destruct (_ || _); [inversion H; subst; apply SAME; auto; discriminate|].
    destruct (negb (x_eca c)) eqn:En; [inversion H; subst; apply SAME; auto; discriminate|].
    match type of H with Ok (match ?m with Some _ => _ | None => _ end) = _ => destruct m as [l|] eqn:El end; [|inversion H; subst; apply SAME; auto; discriminate].
    assert (Fl : filled l u).
    { destruct (x_mfgs c) as [l0|]; [inversion El; subst; exact I|]. destruct alloc_list; [|discriminate]. injection El as <-. rewrite I.
      split; [reflexivity|]. exists (repeat no_slot 4). split; [reflexivity|]. repeat constructor. }
    destruct (est_load_manufacturer nid ce alloc_store load alloc_ctx l) as [e1 l1] eqn:Ld. apply (load_filled _ _ _ _ _ _ _ _ _ Fl) in Ld as [Ld _].
    inversion H; subst. cbn [x_mfgs set_mfgs x_eca]. split.
    + rewrite none_match. destruct (err_eqb e EST_ERR_NONE); cbn [andb] in Ld; [|exact Ld]. destruct (Nat.ltb _ 4); exact Ld.
    + intro Q. destruct (x_eca c); discriminate.
  - cbn [Config.step] in H. destruct (x_eca c); inversion H; subst; cbn; [split; auto|]. rewrite J by reflexivity.
    rewrite J in I by reflexivity. auto.
Qed.
Lemma manufacturers_fold : forall h u, fold_left (fun l oe =>
    match oe with
    | (AddMfg _ nid (Some certs) _ _ _ _ _, EST_ERR_NONE) => if Nat.ltb (length l) 4 then l ++ [(nid, certs)] else l
    | (DisableEca, EST_ERR_NONE) => []
    | _ => l
    end) h u = fold_left mfg_step h u.
Proof. reflexivity. Qed.
Lemma calls_mfgs : forall os c u h c', mfg_inv c u -> (x_eca c = false -> x_mfgs c = None) -> calls os c = Ok (h, c') ->
  mfg_inv c' (fold_left mfg_step h u).
Proof.
  induction os as [|o os IH]; intros c u h c' I J H; cbn in H; [now inversion H; subst|].
  destruct (step o c) as [[e c1]|] eqn:E; cbn [bind] in H; [|discriminate].
  destruct (calls os c1) as [[h1 c2]|] eqn:E2; cbn [bind] in H; [|discriminate]. inversion H; subst.
  destruct (step_mfgs _ _ _ _ _ I J E) as [I1 J1]. cbn [fold_left]. eapply IH; eauto.
Qed.
Lemma held_inv : forall c u, mfg_inv c u -> held c = u.
Proof.
  intros c u I. unfold mfg_inv, held in *. destruct (x_mfgs c) as [l|]; [|congruence]. destruct I as [_ (rest & -> & F)].
  rewrite map_app, concat_app. replace (concat (map usable rest)) with (@nil (Z * bytes)).
  - rewrite app_nil_r. clear. induction u as [|[n b] u IH]; [reflexivity|]. cbn. now rewrite IH.
  - symmetry. induction F as [|s rest E F IH]; [reflexivity|]. cbn. rewrite IH. unfold usable. now rewrite E.
Qed.

(** Rejected calls. *)
Lemma step_rejected : forall o c e c' u, mfg_inv c u -> (x_eca c = false -> x_mfgs c = None) -> step o c = Ok (e, c') -> e <> EST_ERR_NONE ->
  effective c' = effective c
  \/ (exists a, o = InitCsrattrs a /\ c' = set_csrattrs None c)
  \/ (exists nm nid ce n a1 a2 ld a3 l, o = AddMfg nm nid ce n a1 a2 ld a3 /\ x_mfgs c = None /\ x_eca c = true /\ c' = set_mfgs (Some l) c
        /\ map slot_view l = repeat no_slot 4)
  \/ (exists p, o = CoapStart p false /\ 0 <= p <= 65535 /\ c' = set_port p c)
  \/ (exists n, o = SetSessionMax n false /\ 2 <= n <= 128 /\ x_port c = 0 /\ c' = set_req None (x_req_max c) (set_sessions n c)).
Proof.
  intros o c e c' u I J H Ne.
  destruct o; cbn [Config.step] in H.
  3:{ unfold est_server_enable_enhanced_cert_auth in H. cbv zeta in H. left. steps H; inversion H; subst; try congruence; try reflexivity;
      unfold effective; cbn; rewrite Heqb; reflexivity. }
  3:{ unfold est_server_add_mfg_info in H. destruct certs as [ce|]; [|left; inversion H; reflexivity].
      destruct (_ || _); [left; inversion H; reflexivity|]. destruct (negb (x_eca c)) eqn:En; [left; inversion H; reflexivity|].
      destruct (x_mfgs c) as [l|] eqn:El.
      - destruct (est_load_manufacturer _ _ _ _ _ _) as [e1 l1] eqn:Ld. unfold mfg_inv in I. rewrite El in I.
        apply (load_filled _ _ _ _ _ _ _ _ _ I) in Ld as [_ Ld]. inversion H; subst. left. unfold effective. cbn [x_mfgs set_mfgs option_map].
        rewrite (Ld Ne), El. reflexivity.
      - destruct alloc_list; [|left; inversion H; reflexivity].
        assert (Fl : filled (repeat no_slot 4) []) by (split; [reflexivity|]; exists (repeat no_slot 4); split; [reflexivity|repeat constructor]).
        destruct (est_load_manufacturer nid ce alloc_store load alloc_ctx (repeat no_slot 4)) as [e1 l1] eqn:Ld.
        apply (load_filled _ _ _ _ _ _ _ _ _ Fl) in Ld as [_ Ld]. inversion H; subst. right. right. left.
        exists name, nid, (Some ce), certs_len, true, alloc_store, load, alloc_ctx, l1. split; [reflexivity|]. split; [reflexivity|].
        split; [destruct (x_eca c); [reflexivity|discriminate]|]. split; [reflexivity|]. rewrite (Ld Ne). reflexivity. }
  10:{ destruct (x_mode c); try (left; inversion H; reflexivity).
      destruct (est_server_init_csrattrs G bio (x_pop c) attrs) as [[e1 a]|] eqn:E; cbn [bind] in H; [|discriminate]. inversion H; subst.
      right. left. exists attrs. split; [reflexivity|]. f_equal. unfold est_server_init_csrattrs in E.
      destruct attrs as [s|]; [|inversion E; congruence]. destruct (_ <? _); [now inversion E|].
      destruct (est_asn1_parse_attributes G bio s) as [[e2 p2]|]; cbn [bind] in E; [|discriminate]. rewrite none_match in E.
      destruct (err_eqb e2 EST_ERR_NONE); [|now inversion E]. destruct (_ && _); [|inversion E; congruence].
      destruct (est_add_challengePassword G bio s) as [[e3 s3]|]; cbn [bind] in E; [|discriminate]. rewrite none_match in E.
      destruct (err_eqb e3 EST_ERR_NONE); inversion E; congruence. }
  all: unfold est_server_set_auth_mode, est_server_set_dtls_session_max, est_server_coap_init_start, est_set_callback in H; cbv zeta in H;
    steps H; inversion H; subst; try congruence; try (left; reflexivity).
  - right. right. right. right. exists n. repeat split; lia.
  - right. right. right. left. exists port. destruct libcoap; [discriminate|]. repeat split; lia.
  - right. right. right. left. exists port. destruct libcoap; [discriminate|]. repeat split; lia.
Qed.
Lemma calls_eca : forall os c h c', (x_eca c = false -> x_mfgs c = None) -> forall u, mfg_inv c u -> calls os c = Ok (h, c') ->
  x_eca c' = false -> x_mfgs c' = None.
Proof.
  induction os as [|o os IH]; intros c h c' J u I H; cbn in H; [now inversion H; subst|].
  destruct (step o c) as [[e c1]|] eqn:E; cbn [bind] in H; [|discriminate].
  destruct (calls os c1) as [[h1 c2]|] eqn:E2; cbn [bind] in H; [|discriminate]. inversion H; subst.
  destruct (step_mfgs _ _ _ _ _ I J E) as [I1 J1]. eapply IH; eauto.
Qed.
End P.
