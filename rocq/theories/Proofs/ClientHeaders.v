(** The client's reading of responses: bytes and headers. *)
From Coq Require Import String ZArith List Bool Lia ZifyBool ZifyNat.
From Verif Require Import Base Spec.Http Model.CLib Model.EstErr Model.HttpServer Model.Uri Model.AuthHdr Model.ClientHttp Proofs.HttpParse.
Import ListNotations.
Open Scope Z_scope.

(** ** Reading *)
Lemma read_raw_segs : forall segs acc rest, Forall (fun d => d <> []) segs -> len acc + len (concat segs) < EST_CA_MAX ->
  est_io_read_raw (map Data segs ++ Data [] :: rest) acc = (EST_ERR_NONE, acc ++ concat segs).
Proof.
  induction segs as [|d segs IH]; intros acc rest F L; cbn [map app concat est_io_read_raw].
  - now rewrite app_nil_r.
  - inversion F as [|? ? Fd Fs]; subst. cbn [concat] in L. rewrite len_app in L. pose proof (len_nonneg _ (concat segs)).
    pose proof (len_nonneg _ d). pose proof (len_nonneg _ acc).
    replace (len d =? 0) with false. 2: { destruct d; [contradiction|]. rewrite len_cons. pose proof (len_nonneg _ d). lia. }
    replace (len d <? EST_CA_MAX - len acc) with true by lia.
    rewrite IH; [now rewrite app_assoc|assumption|rewrite len_app; lia].
Qed.
Lemma read_raw_result : forall evs acc rv raw, len acc < EST_CA_MAX -> est_io_read_raw evs acc = (rv, raw) ->
  In rv [EST_ERR_NONE; EST_ERR_SSL_READ; EST_ERR_READ_BUFFER_TOO_SMALL] /\ len raw <= EST_CA_MAX
  /\ (rv = EST_ERR_NONE -> exists segs rest, evs = map Data segs ++ Data [] :: rest /\ raw = acc ++ concat segs).
Proof.
  induction evs as [|[d|] evs IH]; intros acc rv raw L H; cbn [est_io_read_raw] in H.
  - apply pair_equal_spec in H; destruct H as [<- <-]. cbn [In]. split; [auto|]. split; [lia|discriminate].
  - pose proof (len_nonneg _ d) as Ld. destruct (len d =? 0) eqn:E0.
    { apply pair_equal_spec in H; destruct H as [<- <-]. cbn [In]. split; [auto|]. split; [lia|]. intros _. exists [], evs. assert (d = []) by (apply len_0_nil; lia). subst d.
      split; [reflexivity|]. symmetry. apply app_nil_r. }
    destruct (len d <? EST_CA_MAX - len acc) eqn:E1.
    { destruct (IH (acc ++ d) rv raw ltac:(rewrite len_app; lia) H) as (A & B & C). split; [exact A|]. split; [exact B|].
      intro R. destruct (C R) as (segs & rest & -> & ->). exists (d :: segs), rest. split; [reflexivity|]. cbn [concat]. symmetry. apply app_assoc. }
    destruct (len d =? EST_CA_MAX - len acc) eqn:E2.
    { destruct evs as [|[[|x y]|] evs]; apply pair_equal_spec in H; destruct H as [<- <-]; cbn [In]; (split; [auto|]; split; [rewrite len_app; lia|]); try discriminate.
      intros _. exists [d], evs. split; [reflexivity|]. cbn [concat]. rewrite app_nil_r. reflexivity. }
    apply pair_equal_spec in H; destruct H as [<- <-]. cbn [In]. split; [auto|]. split; [rewrite len_app, len_firstn; lia|discriminate].
  - apply pair_equal_spec in H; destruct H as [<- <-]. cbn [In]. split; [auto|]. split; [lia|discriminate].
Qed.

(** ** Headers at the level of strings.  [n0]: the length of what the cursor
    started with, so that [n0 - len r] is the cursor at [r]. *)
Fixpoint chdrs (n : nat) (s : bytes) (n0 : Z) (e : option Z) : list (bytes * bytes) * bytes :=
  match n with
  | O => ([], s)
  | S n' =>
    let '(name, r1) := cut [58] [32] s in
    let '(value, r2) := cut [13; 10] [13; 10] r1 in
    match name with
    | [] => ([], r2)
    | _ =>
      if past e (n0 - len r2) then ([(name, value)], r2)
      else let '(l, r) := chdrs n' r2 n0 e in ((name, value) :: l, r)
    end
  end.
Definition resp_text (w : bytes) : list (bytes * bytes) * bytes :=
  chdrs 16 (snd (cut [13; 10] [13; 10] w)) (len w) (find_sub [13; 10; 13; 10] w).

Definition shows (m : bytes) (n0 : Z) (o : Z * Z) (t : bytes * bytes) : Prop :=
  has_text m (fst o) (fst t) /\ has_text m (snd o) (snd t) /\ 0 <= fst o <= n0 /\ 0 <= snd o <= n0.

Lemma client_headers_spec : forall n e n0 pre s post, no_nul s -> len pre + len s = n0 ->
  exists s' pre' hs,
    client_headers n (pre ++ s ++ 0 :: post) (len pre) e = Ok (pre ++ s' ++ 0 :: post, len pre', hs)
    /\ len s' = len s
    /\ pre ++ s' ++ 0 :: post = pre' ++ snd (chdrs n s n0 e) ++ 0 :: post
    /\ len pre' + len (snd (chdrs n s n0 e)) = n0
    /\ no_nul (snd (chdrs n s n0 e))
    /\ (length hs <= n)%nat
    /\ Forall2 (shows (pre ++ s' ++ 0 :: post) n0) hs (fst (chdrs n s n0 e)).
Proof.
  induction n as [|n IH]; intros e n0 pre s post Hs Ln.
  - exists s, pre, []. cbn. repeat split; auto.
  - cbn [client_headers chdrs].
    destruct (skip_step pre s post [58] [SP] Hs) as (pre1 & E1 & L1 & z1 & P1 & Z1).
    rewrite E1. cbn [bind]. clear E1.
    destruct (cut_no_nul [58] [SP] s Hs) as [Hn1 Hr1].
    change [32] with [SP].
    destruct (cut [58] [SP] s) as [name r1] eqn:C1. cbn [fst snd] in *.
    destruct (skip_step pre1 r1 post [CR; LF] [CR; LF] Hr1) as (pre2 & E2 & L2 & z2 & P2 & Z2).
    unfold skip. rewrite E2. cbn [bind]. clear E2.
    destruct (cut_no_nul [CR; LF] [CR; LF] r1 Hr1) as [Hn2 Hr2].
    change [13; 10] with [CR; LF].
    destruct (cut [CR; LF] [CR; LF] r1) as [value r2] eqn:C2. cbn [fst snd] in *.
    assert (Hname : forall r2', len r2' = len r2 ->
              has_text (pre2 ++ r2' ++ 0 :: post) (len pre) name).
    { intros r2' Hl. subst pre2 pre1. rewrite <- !app_assoc.
      destruct z1 as [|z1].
      - specialize (Z1 eq_refl). subst r1. unfold cut in C2. cbn in C2. inversion C2; subst.
        assert (z2 = 0%nat). { rewrite !len_app, !len_repeat in L2. change (len (@nil Z)) with 0 in L2. lia. } subst z2.
        assert (r2' = []) by (apply len_0_nil; rewrite Hl; reflexivity). subst r2'.
        cbn. exists pre, post. auto.
      - exists pre, (repeat 0 z1 ++ value ++ repeat 0 z2 ++ r2' ++ 0 :: post). auto. }
    assert (Hvalue : forall r2', len r2' = len r2 ->
              has_text (pre2 ++ r2' ++ 0 :: post) (len pre1) value).
    { intros r2' Hl. subst pre2. eapply has_text_frame; eauto. }
    assert (Hrd : rd (pre2 ++ r2 ++ 0 :: post) (len pre) = Ok (match name with [] => 0 | c :: _ => c end)).
    { destruct (Hname r2 eq_refl) as (p & q & Em & _ & Ep). rewrite Em, Ep.
      destruct name; cbn [app]; apply rd_app. }
    rewrite Hrd. cbn [bind].
    assert (Hall : forall r2', len r2' = len r2 -> exists x', pre2 ++ r2' ++ 0 :: post = pre ++ x' ++ 0 :: post /\ len x' = len s).
    { intros r2' Hl. subst pre2 pre1. exists (name ++ repeat 0 z1 ++ value ++ repeat 0 z2 ++ r2').
      split; [now rewrite <- !app_assoc|]. rewrite !len_app, !len_repeat in *. lia. }
    destruct (Hall r2 eq_refl) as (x & Ex & Lx).
    pose proof (len_nonneg _ pre) as P0. pose proof (len_nonneg _ pre1) as P1'. pose proof (len_nonneg _ s) as P2'. pose proof (len_nonneg _ r1) as P3'.
    destruct name as [|c name].
    + exists x, pre2, []. cbn [fst snd]. rewrite <- Ex. repeat split; auto; try (cbn; lia).
    + assert (c <> 0) by now apply no_nul_cons in Hn1.
      replace (c =? 0) with false by lia.
      replace (n0 - len r2) with (len pre2) by lia.
      destruct (past e (len pre2)) eqn:Pa.
      * exists x, pre2, [(len pre, len pre1)]. cbn [fst snd]. rewrite <- Ex. repeat split; auto; try lia; try (cbn; lia).
        repeat constructor; cbn [fst snd]; auto; lia.
      * destruct (IH e n0 pre2 r2 post Hr2 ltac:(lia)) as (s' & pre' & hs & E3 & L3 & M3 & N3 & U3 & Ln3 & T3).
        rewrite E3. cbn [bind].
        destruct (Hall s' L3) as (x' & Ex' & Lx').
        destruct (chdrs n r2 n0 e) as [l r]. cbn [fst snd] in *.
        exists x', pre', ((len pre, len pre1) :: hs).
        rewrite <- Ex'. repeat split; auto.
        -- cbn. lia.
        -- constructor; [|assumption]. unfold shows. cbn [fst snd]. repeat split; auto; lia.
Qed.

Lemma parse_response_headers_spec : forall w post, no_nul w ->
  exists s' pre' hs,
    parse_response_headers (w ++ 0 :: post) = Ok (s' ++ 0 :: post, len pre', hs)
    /\ len s' = len w
    /\ s' ++ 0 :: post = pre' ++ snd (resp_text w) ++ 0 :: post
    /\ len pre' + len (snd (resp_text w)) = len w
    /\ (length hs <= 16)%nat
    /\ Forall2 (shows (s' ++ 0 :: post) (len w)) hs (fst (resp_text w)).
Proof.
  intros w post Nw. unfold parse_response_headers.
  pose proof (cstr_at_app [] w post Nw) as Hc. change (len (@nil Z)) with 0 in Hc. cbn [app] in Hc. rewrite Hc. cbn [bind].
  destruct (skip_step [] w post [CR; LF] [CR; LF] Nw) as (pre1 & E1 & L1 & z1 & P1 & Z1). cbn [app] in E1. change (len (@nil Z)) with 0 in *.
  unfold skip. rewrite E1. cbn [bind]. clear E1.
  destruct (cut_no_nul [CR; LF] [CR; LF] w Nw) as [_ Hr1]. set (r1 := snd (cut [CR; LF] [CR; LF] w)) in *.
  destruct (client_headers_spec 16 (find_sub [CR; LF; CR; LF] w) (len w) pre1 r1 post Hr1 ltac:(lia)) as (s' & pre' & hs & E & L & M & N & U & Ln & T).
  unfold MAX_HEADERS. rewrite E. unfold resp_text. change [13; 10] with [CR; LF]. fold r1. change [13; 10; 13; 10] with [CR; LF; CR; LF].
  exists (pre1 ++ s'), pre', hs. rewrite <- !app_assoc. repeat split; auto. rewrite len_app. lia.
Qed.
