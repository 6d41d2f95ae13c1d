(** URI decoding and normalisation. *)
From Coq Require Import String ZArith List Bool Lia ZifyBool ZifyNat.
From Verif Require Import Base Model.CLib Model.HttpServer Spec.Http Spec.Uri Proofs.HttpParse Proofs.HttpConn.
Import ListNotations.
Open Scope Z_scope.

Lemma isxdigit_spec : forall c, isxdigit c = true <-> is_hex c.
Proof.
  intro c. unfold isxdigit, isdigit, is_hex, hexval. split.
  - intro H. destruct ((48 <=? c) && (c <=? 57)) eqn:E1; [exists (c - 48); lia|].
    destruct ((65 <=? c) && (c <=? 70)) eqn:E2; [exists (c - 55); lia|].
    exists (c - 87). lia.
  - intros [v H]. lia.
Qed.

Lemma hextoi_spec : forall c v, hexval c v -> HEXTOI (tolower c) = v.
Proof.
  intros c v H. unfold HEXTOI, tolower, isupper, isdigit, hexval in *.
  destruct ((65 <=? c) && (c <=? 90)) eqn:E.
  - replace ((48 <=? c + 32) && (c + 32 <=? 57)) with false by lia. lia.
  - destruct ((48 <=? c) && (c <=? 57)) eqn:E2; lia.
Qed.

Lemma hexval_hextoi : forall c, is_hex c -> hexval c (HEXTOI (tolower c)).
Proof. intros c [v H]. now rewrite (hextoi_spec c v H). Qed.

Lemma url_decode_loop_full : forall n s dl, (length s <= n)%nat -> len s <= dl ->
  exists r, url_decode_loop s (len s) dl false = Ok (r, true) /\ pct_decodes s r.
Proof.
  induction n as [|n IH]; intros s dl Hn Hdl.
  - destruct s; [|cbn in Hn; lia]. exists []. split; [reflexivity|constructor].
  - destruct s as [|c t]; [exists []; split; [reflexivity|constructor]|].
    cbn in Hn. rewrite len_cons in *. cbn [url_decode_loop].
    pose proof (len_nonneg _ t).
    replace ((len t + 1 <=? 0) || (dl <=? 0)) with false by lia.
    cbn [andb]. 
    destruct (IH t (dl - 1) ltac:(lia) ltac:(lia)) as (r & E & D).
    replace (len t + 1 - 1) with (len t) by lia.
    assert (P : ~ (c = 37 /\ exists a b u, t = a :: b :: u /\ is_hex a /\ is_hex b) ->
       exists r0, bind (url_decode_loop t (len t) (dl - 1) false)
           (fun x => let (r, ok) := x in Ok (c :: r, ok)) = Ok (r0, true) /\ pct_decodes (c :: t) r0).
    { intro Hno. rewrite E. cbn [bind]. eexists. split; [reflexivity|]. now constructor. }
    destruct t as [|a [|b u]].
    + apply P. intros (_ & a & b & u & Hx & _). discriminate.
    + apply P. intros (_ & a' & b & u & Hx & _). discriminate.
    + destruct ((c =? 37) && isxdigit a && isxdigit b) eqn:Eesc.
      * apply andb_true_iff in Eesc as [Eesc Hb]. apply andb_true_iff in Eesc as [Hc Ha].
        apply isxdigit_spec in Ha, Hb. assert (c = 37) by lia. subst c.
        cbn in Hn. rewrite !len_cons in *.
        destruct (IH u (dl - 1) ltac:(lia) ltac:(lia)) as (r' & E' & D').
        replace (len u + 1 + 1 + 1 - 3) with (len u) by lia.
        rewrite E'. cbn [bind]. eexists. split; [reflexivity|].
        replace (HEXTOI (tolower a) * 16 + HEXTOI (tolower b)) with (16 * HEXTOI (tolower a) + HEXTOI (tolower b)) by lia.
        constructor; auto using hexval_hextoi.
      * apply P. intros (-> & a' & b' & u' & Hx & Ha & Hb). inversion Hx; subst.
        apply isxdigit_spec in Ha, Hb. rewrite Ha, Hb in Eesc. discriminate.
Qed.

Theorem url_decode_exact : forall s, exists r,
  url_decode s (len s) (len s + 1) false = Ok (r, len r) /\ pct_decodes s r.
Proof.
  intro s. unfold url_decode.
  destruct (url_decode_loop_full _ s (len s + 1 - 1) (le_n _) ltac:(lia)) as (r & E & D).
  exists r. rewrite E. cbn. auto.
Qed.

Lemma hexval_fun : forall c v v', hexval c v -> hexval c v' -> v = v'.
Proof. unfold hexval. intros. lia. Qed.

Theorem pct_decodes_fun : forall e s, pct_decodes e s -> forall s', pct_decodes e s' -> s = s'.
Proof.
  induction 1 as [|a b x y e s Ha Hb D IH|c e s Hno D IH]; intros s' D'; inversion D'; subst.
  - reflexivity.
  - f_equal; [|now apply IH]. rewrite (hexval_fun a x x0), (hexval_fun b y y0); auto.
  - exfalso. match goal with H : ~ (37 = 37 /\ _) |- _ => apply H end.
    split; [reflexivity|]. exists a, b, e. repeat split; [exists x|exists y]; assumption.
  - exfalso. apply Hno. split; [reflexivity|]. do 3 eexists. split; [reflexivity|].
    split; eexists; eassumption.
  - f_equal. now apply IH.
Qed.

Lemma hexdigit_val : forall v, 0 <= v < 16 -> hexval (hexdigit v) v.
Proof. intros v H. unfold hexdigit, hexval. destruct (v <? 10) eqn:E; lia. Qed.

Lemma pct_encode_decodes : forall s, all_bytes s -> pct_decodes (pct_encode s) s.
Proof.
  induction s as [|b s IH]; intro H; [constructor|]. inversion H; subst. cbn [pct_encode flat_map app].
  assert (Hb : b = 16 * (b / 16) + b mod 16) by (apply Z.div_mod; lia).
  rewrite Hb at 3. constructor.
  - apply hexdigit_val. unfold is_byte in *. split; [apply Z.div_pos; lia|apply Z.div_lt_upper_bound; lia].
  - apply hexdigit_val. apply Z.mod_pos_bound. lia.
  - now apply IH.
Qed.

(** Bounds for an arbitrary destination size. *)
Theorem url_decode_bounded : forall s sl dl f, 0 <= sl <= len s -> 1 <= dl ->
  exists r n, url_decode s sl dl f = Ok (r, n) /\ len r <= dl - 1 /\ len r <= sl /\ (n = -1 \/ n = len r).
Proof.
  intros s sl dl f H1 H2. unfold url_decode.
  destruct (url_decode_loop_ok f _ s sl (dl - 1) (le_n _) ltac:(lia)) as (r & ok & E & L1 & L2).
  rewrite E. cbn [bind]. eexists _, _. split; [reflexivity|]. destruct ok; repeat split; try lia.
Qed.

(** ** Normalisation *)
Lemma is_slash_spec : forall c, is_slash c = true <-> slash c.
Proof. intro c. unfold is_slash, slash. lia. Qed.

Lemma rm_dots_true : forall n s, (length s <= n)%nat -> exists g t,
  s = g ++ t /\ junk g /\ ~ starts_junk t /\ rm_dots true s = rm_dots false t.
Proof.
  induction n as [|n IH]; intros s Hn.
  - destruct s; [|cbn in Hn; lia]. exists [], []. repeat split; try constructor.
    intros [(c & u & H & _)|(u & H)]; discriminate.
  - destruct s as [|c t].
    { exists [], []. repeat split; try constructor. intros [(c & u & H & _)|(u & H)]; discriminate. }
    cbn in Hn. cbn [rm_dots]. destruct (is_slash c) eqn:Es.
    + destruct (IH t ltac:(lia)) as (g & t' & -> & Hg & Ht & E).
      exists (c :: g), t'. repeat split; auto. constructor; [now apply is_slash_spec|assumption].
    + assert (Hns : ~ slash c) by (rewrite <- is_slash_spec; congruence).
      destruct t as [|d u].
      * exists [], [c]. repeat split; try constructor.
        -- intros [(c' & u & H & Hs)|(u & H)]; inversion H; subst; contradiction.
      * destruct ((c =? 46) && (d =? 46)) eqn:Ed.
        -- cbn in Hn. destruct (IH u ltac:(lia)) as (g & t' & -> & Hg & Ht & E).
           exists (46 :: 46 :: g), t'. assert (c = 46 /\ d = 46) as [-> ->] by lia.
           repeat split; auto. now constructor.
        -- exists [], (c :: d :: u). repeat split; try constructor.
           ++ intros [(c' & u' & H & Hs)|(u' & H)]; inversion H; subst; [contradiction|lia].
           ++ cbn [rm_dots app]. rewrite Es. reflexivity.
Qed.

Lemma rm_dots_nf : forall n s, (length s <= n)%nat -> normal_form s (rm_dots false s).
Proof.
  induction n as [|n IH]; intros s Hn.
  - destruct s; [constructor|cbn in Hn; lia].
  - destruct s as [|c t]; [constructor|]. cbn in Hn. cbn [rm_dots].
    destruct (is_slash c) eqn:Es.
    + destruct (rm_dots_true _ t (le_n _)) as (g & t' & -> & Hg & Ht & E). rewrite E.
      constructor; auto; [now apply is_slash_spec|]. apply IH. rewrite app_length in Hn. lia.
    + constructor; [rewrite <- is_slash_spec; congruence|]. apply IH. lia.
Qed.

Lemma junk_split : forall g t g' t', junk g -> junk g' -> ~ starts_junk t -> ~ starts_junk t' ->
  g ++ t = g' ++ t' -> g = g' /\ t = t'.
Proof.
  intros g t g' t' Hg. revert g'. induction Hg as [|c g Hc Hg IH|g Hg IH]; intros g' Hg' Ht Ht' E.
  - inversion Hg' as [|c g0 Hc Hg0|g0 Hg0]; subst.
    + auto.
    + exfalso. apply Ht. left. cbn in E. eauto.
    + exfalso. apply Ht. right. cbn in E. eauto.
  - inversion Hg' as [|c0 g0 Hc0 Hg0|g0 Hg0]; subst; cbn in E.
    + exfalso. apply Ht'. left. eauto.
    + inversion E; subst. destruct (IH g0) as [-> ->]; auto.
    + inversion E; subst. unfold slash in Hc. lia.
  - inversion Hg' as [|c0 g0 Hc0 Hg0|g0 Hg0]; subst; cbn in E.
    + exfalso. apply Ht'. right. eauto.
    + inversion E; subst. unfold slash in Hc0. lia.
    + inversion E as [E']. destruct (IH g0 Hg0 Ht Ht' E') as [-> ->]; auto.
Qed.

Theorem normal_form_fun : forall u v, normal_form u v -> forall v', normal_form u v' -> v = v'.
Proof.
  induction 1 as [|c t v Hc N IH|c g t v Hc Hg Ht N IH]; intros v' N'.
  - inversion N'. reflexivity.
  - inversion N'; subst; [|contradiction]. f_equal. now apply IH.
  - inversion N' as [|c0 t0 v0 Hc0 N0|c0 g0 t0 v0 Hc0 Hg0 Ht0 N0]; subst; [contradiction|].
    match goal with H : _ ++ _ = _ ++ _ |- _ => apply junk_split in H as [-> ->]; auto end.
    f_equal. now apply IH.
Qed.

Lemma nf_not_starts : forall u v, normal_form u v -> ~ starts_junk u -> ~ starts_junk v.
Proof.
  intros u v N Hu [(c & w & -> & Hc)|(w & ->)]; apply Hu.
  - inversion N; subst.
    + left. eauto.
    + left. eauto.
  - inversion N as [|c t v Hns N1|c g t v Hs]; subst; [|unfold slash in *; lia].
    inversion N1 as [|c t0 v Hns1 N2|c g t0 v Hs]; subst; [|unfold slash in *; lia].
    right. eauto.
Qed.

Lemma normal_form_clean : forall u v, normal_form u v -> clean v.
Proof.
  induction 1 as [|c t v Hc N IH|c g t v Hc Hg Ht N IH]; intros a c' b E Hs.
  - destruct a; discriminate.
  - destruct a as [|x a]; inversion E; subst; [contradiction|]. eapply IH; eauto.
  - destruct a as [|x a]; inversion E; subst.
    + eapply nf_not_starts; eauto.
    + eapply IH; eauto.
Qed.

Lemma clean_normal : forall u, clean u -> normal_form u u.
Proof.
  induction u as [|c t IH]; intro H; [constructor|].
  assert (Ht : clean t). { intros a c' b E Hs. apply (H (c :: a) c' b); [cbn; congruence|assumption]. }
  destruct (is_slash c) eqn:Es.
  - apply is_slash_spec in Es. apply (nf_slash c [] t t); auto; [constructor|]. now apply (H [] c t).
  - constructor; auto. rewrite <- is_slash_spec. congruence.
Qed.

Lemma normal_form_len : forall u v, normal_form u v -> len v <= len u.
Proof.
  induction 1; rewrite ?len_nil, ?len_cons, ?len_app; try lia.
  pose proof (len_nonneg _ g). lia.
Qed.
