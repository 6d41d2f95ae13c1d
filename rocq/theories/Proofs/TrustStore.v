From Coq Require Import ZArith List Bool Lia.
From Verif Require Import Base Model.EstErr Model.SafeC Model.Peer Model.TrustStore Spec.TrustStore.
Import ListNotations.
Open Scope Z_scope.

Lemma subj_fits : forall s, (exists r, est_get_subj_fld_from_cert s (repeat 0 (Z.to_nat EST_MAX_CERT_SUBJ_LEN)) EST_MAX_CERT_SUBJ_LEN = Ok r) <-> len s < 255.
Proof.
  intro s. unfold est_get_subj_fld_from_cert. destruct s as [|c s]; [split; [unfold len; cbn; lia|intros _; eexists; reflexivity]|].
  set (t := c :: s). change EST_MAX_CERT_SUBJ_LEN with 255. unfold copy_to. assert (R : len (repeat 0 (Z.to_nat 255)) = 255) by reflexivity. rewrite R.
  replace (len (firstn (Z.to_nat 255) t) <=? 255) with true by (rewrite len_firstn; lia). cbn [bind].
  set (b := firstn (Z.to_nat 255) t ++ skipn (length (firstn (Z.to_nat 255) t)) (repeat 0 (Z.to_nat 255))).
  assert (L : length b = 255%nat) by (unfold b; rewrite app_length, skipn_length, repeat_length, firstn_length; change (Z.to_nat 255) with 255%nat; lia).
  unfold wr. pose proof (len_nonneg _ t). destruct (len t <? 255) eqn:Lt.
  - replace (0 <=? len t) with true by lia. destruct (nth_error b (Z.to_nat (len t))) eqn:N.
    + split; [lia|]. intros _. eexists; reflexivity.
    + apply nth_error_None in N. lia.
  - replace (0 <=? 255) with true by lia. destruct (nth_error b (Z.to_nat 255)) eqn:N.
    + assert (nth_error b (Z.to_nat 255) <> None) by congruence. apply nth_error_Some in H0. rewrite L in H0. change (Z.to_nat 255) with 255%nat in H0. lia.
    + split; [intros [r Q]; discriminate Q|lia].
Qed.

Lemma in_add : forall X st x y, In y (add X st x) <-> In y st \/ (y = x /\ o_takes X x = true).
Proof.
  intros. unfold add. destruct (o_takes X x) eqn:T.
  - rewrite in_app_iff. cbn. intuition congruence.
  - intuition congruence.
Qed.

Definition found (i : info) : Z := match i_x509 i with Some _ => 1 | None => 0 end.
Lemma load_loop_spec : forall X sk st n, 0 <= n ->
  (long_subject sk /\ load_loop X sk st n = UB)
  \/ (~ long_subject sk /\ exists k st', load_loop X sk st n = Ok (k, st') /\ n <= k /\ (n < k <-> has_certificate sk)
      /\ forall x, In x st' <-> In x st \/ (contains sk x /\ o_takes X x = true)).
Proof.
  induction sk as [|xi sk IH]; intros st n Hn.
  - right. split; [intros (i & c & [] & _)|]. exists n, st. split; [reflexivity|]. split; [lia|]. split; [split; [lia|intros (d & i & [] & _)]|].
    intro x. split; [now left|]. intros [H|[(i & [] & _) _]]. exact H.
  - cbn [load_loop].
    set (st1 := fun st0 => match i_crl xi with None => st0 | Some r => add X st0 (Crl r) end).
    assert (S1 : forall st0 x, In x (st1 st0) <-> In x st0 \/ (exists r, i_crl xi = Some r /\ x = Crl r /\ o_takes X x = true)).
    { intros st0 x. unfold st1. destruct (i_crl xi) as [r|].
      - rewrite in_add. split; [intros [H|[-> T]]; [now left|right; eauto]|intros [H|(r' & E & -> & T)]; [now left|right; split; congruence]].
      - split; [now left|]. intros [H|(r & E & _)]; [exact H|discriminate]. }
    destruct (i_x509 xi) as [c|] eqn:C.
    + destruct (est_get_subj_fld_from_cert (t_subject c) _ _) as [r|] eqn:E; cbn [bind].
      * assert (Lc : len (t_subject c) < 255) by (apply subj_fits; eauto).
        destruct (IH (st1 (add X st (Anchor (t_der c)))) (n + 1) ltac:(lia)) as [[LS U]|[NL (k & st' & Ek & Kn & Kc & Kx)]].
        -- left. split; [|exact U]. destruct LS as (i & c' & I & Q). exists i, c'. split; [now right|exact Q].
        -- right. split.
           { intros (i & c' & [->|I] & Q & L); [rewrite C in Q; injection Q as ->; lia|]. apply NL. exists i, c'. auto. }
           exists k, st'. split; [exact Ek|]. split; [lia|]. split.
           { split; [|lia]. intros _. exists (t_der c), xi. split; [now left|]. eauto. }
           intro x. rewrite Kx, S1, in_add. split.
           { intros [[[H|[-> T]]|(r' & Q & -> & T)]|[(i & I & Q) T]]; [now left| | |].
             - right. split; [|exact T]. exists xi. split; [now left|]. eauto.
             - right. split; [|exact T]. exists xi. split; [now left|exact Q].
             - right. split; [|exact T]. exists i. split; [now right|exact Q]. }
           { intros [H|[(i & [->|I] & Q) T]]; [now left; left; left| |].
             - destruct x as [d|q]; [destruct Q as (c' & Q & <-); rewrite C in Q; injection Q as ->; left; left; right; auto|left; right; eauto].
             - right. split; [|exact T]. exists i. auto. }
      * left. split; [|reflexivity]. exists xi, c. split; [now left|]. split; [exact C|].
        destruct (Z_lt_ge_dec (len (t_subject c)) 255) as [L|L]; [|lia]. apply subj_fits in L. destruct L as [r L]. rewrite E in L. discriminate L.
    + cbn [bind]. destruct (IH (st1 st) n Hn) as [[LS U]|[NL (k & st' & Ek & Kn & Kc & Kx)]].
      * left. split; [|exact U]. destruct LS as (i & c' & I & Q). exists i, c'. split; [now right|exact Q].
      * right. split.
        { intros (i & c' & [->|I] & Q & L); [rewrite C in Q; discriminate|]. apply NL. exists i, c'. auto. }
        exists k, st'. split; [exact Ek|]. split; [exact Kn|]. split.
        { rewrite Kc. split; intros (d & i & I & Q); exists d, i.
          - split; [now right|exact Q].
          - destruct I as [->|I]; [destruct Q as (c' & Q & _); rewrite C in Q; discriminate|]. auto. }
        intro x. rewrite Kx, S1. split.
        { intros [[H|(r' & Q & -> & T)]|[(i & I & Q) T]]; [now left| |].
          - right. split; [|exact T]. exists xi. split; [now left|exact Q].
          - right. split; [|exact T]. exists i. split; [now right|exact Q]. }
        { intros [H|[(i & [->|I] & Q) T]]; [now left; left| |].
          - destruct x as [d|q]; [destruct Q as (c' & Q & _); rewrite C in Q; discriminate|left; right; eauto].
          - right. split; [|exact T]. exists i. auto. }
Qed.
