(** Proofs about request framing and parsing. *)
From Coq Require Import String ZArith List Bool Lia ZifyBool ZifyNat.
From Verif Require Import Base Model.CLib Model.HttpServer Spec.Http.
Import ListNotations.
Open Scope Z_scope.

(** ** Framing *)

Lemma bad_req_char_spec : forall c, is_byte c -> (bad_req_char c = true <-> ~ head_byte c).
Proof.
  intros c H. unfold bad_req_char, head_byte, isprint, CR, LF, is_byte in *. lia.
Qed.
Lemma bad_req_char_spec' : forall c, bad_req_char c = false <-> head_byte c \/ False.
Proof.
  intros c. unfold bad_req_char, head_byte, isprint, CR, LF, is_byte in *. lia.
Qed.

Lemma not_ends_nil : ~ ends_empty_line [].
Proof. intros [x [H|H]]; destruct x; discriminate. Qed.

Lemma ends_cons : forall a p, ends_empty_line p -> ends_empty_line (a :: p).
Proof. intros a p [x [->| ->]]; exists (a :: x); [left|right]; reflexivity. Qed.

Lemma ends_cons_inv : forall a p, ends_empty_line (a :: p) ->
  ends_empty_line p \/ (a = 10 /\ (p = [10] \/ p = [13; 10])).
Proof.
  intros a p [x [H|H]]; destruct x as [|y x]; cbn in H; inversion H; subst.
  - right. auto.
  - left. exists x. now left.
  - right. auto.
  - left. exists x. now right.
Qed.

(** Generalised characterisation used for the induction: scanning [s]. *)
Lemma complete_head_cons : forall a t n,
  bad_req_char a = false ->
  ~ (a = 10 /\ (firstn 1 t = [10] \/ firstn 2 t = [13; 10])) ->
  (complete_head (a :: t) n <-> complete_head t (n - 1)).
Proof.
  intros a t n Ha Hne. apply bad_req_char_spec' in Ha as [Ha|[]].
  unfold complete_head. rewrite len_cons. split; intros (H1 & H2 & H3 & H4).
  - destruct (Z.to_nat n) as [|n'] eqn:En; [lia|].
    assert (E : Z.to_nat (n - 1) = n') by lia. rewrite E. clear E.
    cbn [firstn] in *. apply Forall_cons_iff in H2 as [_ H2]. apply ends_cons_inv in H3.
    assert (H3' : ends_empty_line (firstn n' t)).
    { destruct H3 as [H3|[Ha' [Hp|Hp]]]; [assumption|exfalso; apply Hne; split; [assumption|]..].
      - left. destruct n' as [|[|n']]; cbn in Hp; [discriminate| |]; destruct t as [|x [|y t]]; cbn in *; congruence.
      - right. destruct n' as [|[|n']]; cbn in Hp; [discriminate| |]; destruct t as [|x [|y t]]; cbn in *; try congruence.
    }
    repeat split; try assumption.
    + destruct n'; [exfalso; revert H3'; apply not_ends_nil | lia].
    + lia.
    + intros k Hk He. apply (H4 (k + 1)); [lia|].
      replace (Z.to_nat (k + 1)) with (S (Z.to_nat k)) by lia. cbn [firstn]. now apply ends_cons.
  - replace (Z.to_nat n) with (S (Z.to_nat (n - 1))) by lia. cbn [firstn].
    repeat split; try lia.
    + constructor; assumption.
    + now apply ends_cons.
    + intros k Hk He. destruct (Z.to_nat k) as [|k'] eqn:Ek; [revert He; apply not_ends_nil|].
      cbn [firstn] in He. apply ends_cons_inv in He as [He|[Ha' [Hp|Hp]]].
      * apply (H4 (k - 1)); [lia|]. now replace (Z.to_nat (k - 1)) with k' by lia.
      * apply Hne. split; [assumption|]. left.
        destruct k' as [|[|k']]; cbn in Hp; [discriminate| |]; destruct t as [|x [|y t]]; cbn in *; congruence.
      * apply Hne. split; [assumption|]. right.
        destruct k' as [|[|k']]; cbn in Hp; [discriminate| |]; destruct t as [|x [|y t]]; cbn in *; congruence.
Qed.

Lemma complete_head_min : forall l n m, complete_head l n -> complete_head l m -> n = m.
Proof.
  intros l n m (H1 & _ & H3 & H4) (H1' & _ & H3' & H4').
  destruct (Z.lt_trichotomy n m) as [H|[H|H]]; [|assumption|].
  - exfalso. apply (H4' n); [lia|assumption].
  - exfalso. apply (H4 m); [lia|assumption].
Qed.

Lemma grl_eq : forall a b u off,
  grl (a :: b :: u) off =
  if bad_req_char a then -1
  else if (a =? LF) && (b =? LF) then off + 2
  else if (a =? LF) && (b =? CR) && match u with c :: _ => c =? LF | [] => false end then off + 3
  else grl (b :: u) (off + 1).
Proof. intros. destruct u; cbn [grl]; [rewrite andb_false_r|]; reflexivity. Qed.

Lemma grl_shift : forall s off, 0 <= off ->
  grl s off = (if 0 <? grl s 0 then grl s 0 + off else grl s 0).
Proof.
  induction s as [|a s IH]; intros off Ho; [reflexivity|].
  destruct s as [|b u]; [reflexivity|]. rewrite !grl_eq.
  destruct (bad_req_char a); [reflexivity|]. destruct ((a =? LF) && (b =? LF)); [change (0 <? 0 + 2) with true; cbv iota; lia|].
  destruct (_ && _ && _); [change (0 <? 0 + 3) with true; cbv iota; lia|].
  rewrite (IH (off + 1)), (IH (0 + 1)) by lia.
  destruct (0 <? grl (b :: u) 0) eqn:E; [|rewrite E; reflexivity].
  replace (0 <? grl (b :: u) 0 + (0 + 1)) with true by lia. lia.
Qed.

Theorem get_request_len_complete : forall l n, 0 < n ->
  (get_request_len l = n <-> complete_head l n).
Proof.
  unfold get_request_len. induction l as [|a s IH]; intros n Hn.
  - cbn. split; [lia|]. intros (H & _). unfold len in H. cbn in H. lia.
  - destruct s as [|b u].
    + change (grl [a] 0) with 0. split; [lia|]. intros (H1 & _ & H3 & _). unfold len in H1. cbn in H1.
      replace n with 1 in H3 by lia. cbn in H3. destruct H3 as [x [H|H]]; destruct x as [|? [|? [|]]]; discriminate.
    + rewrite grl_eq. destruct (bad_req_char a) eqn:Eb.
      { split; [lia|]. intros (H1 & H2 & _). exfalso.
        destruct (Z.to_nat n) eqn:En; [lia|]. cbn [firstn] in H2. inversion H2; subst.
        assert (Hh : bad_req_char a = false) by (apply bad_req_char_spec'; now left). congruence. }
      destruct ((a =? LF) && (b =? LF)) eqn:E1.
      { unfold LF in E1. assert (a = 10 /\ b = 10) as [-> ->] by lia.
        assert (C : complete_head (10 :: 10 :: u) 2).
        { split; [|split; [|split]].
          - rewrite !len_cons. pose proof (len_nonneg _ u). lia.
          - change (firstn (Z.to_nat 2) (10 :: 10 :: u)) with [10; 10].
            repeat constructor; unfold head_byte; lia.
          - change (firstn (Z.to_nat 2) (10 :: 10 :: u)) with [10; 10]. exists []. now left.
          - intros k Hk [x [Hx|Hx]]; assert (k = 0 \/ k = 1) as [-> | ->] by lia; cbn in Hx;
            destruct x as [|? [|? [|]]]; discriminate. }
        split; [intro H; replace n with 2 by lia; assumption|].
        intro H. rewrite (complete_head_min _ _ _ H C). lia. }
      assert (G : ~ (a = 10 /\ (firstn 1 (b :: u) = [10] \/ firstn 2 (b :: u) = [13; 10])) ->
                  (grl (b :: u) (0 + 1) = n <-> complete_head (a :: b :: u) n)).
      { intro Hne. rewrite (complete_head_cons a (b :: u) n Eb Hne).
        rewrite grl_shift by lia.
        destruct (Z.eq_dec n 1) as [->|Hn1].
        - split.
          + destruct (0 <? grl (b :: u) 0) eqn:E; lia.
          + intros (H & _). lia.
        - rewrite <- (IH (n - 1)) by lia.
          destruct (0 <? grl (b :: u) 0) eqn:E; lia. }
      destruct ((a =? LF) && (b =? CR) && match u with c :: _ => c =? LF | [] => false end) eqn:E2.
      2:{ apply G. unfold LF, CR in *. intros [-> [H|H]]; destruct u as [|c u']; cbn in H; inversion H; subst; discriminate. }
      destruct u as [|c u']; [lia|].
        { unfold LF, CR in E2. assert (a = 10 /\ b = 13 /\ c = 10) as (-> & -> & ->) by lia.
          assert (C : complete_head (10 :: 13 :: 10 :: u') 3).
          { split; [|split; [|split]].
            - rewrite !len_cons. pose proof (len_nonneg _ u'). lia.
            - change (firstn (Z.to_nat 3) (10 :: 13 :: 10 :: u')) with [10; 13; 10].
              repeat constructor; unfold head_byte; lia.
            - change (firstn (Z.to_nat 3) (10 :: 13 :: 10 :: u')) with [10; 13; 10]. exists []. now right.
            - intros k Hk [x [Hx|Hx]]; assert (k = 0 \/ k = 1 \/ k = 2) as [-> | [-> | ->]] by lia; cbn in Hx;
              destruct x as [|? [|? [|? [|]]]]; discriminate. }
          split; [intro H; replace n with 3 by lia; assumption|].
          intro H. rewrite (complete_head_min _ _ _ H C). lia. }
Qed.

Lemma grl_range : forall s, grl s 0 = -1 \/ grl s 0 = 0 \/ 0 < grl s 0.
Proof.
  induction s as [|a s IH]; [cbn; lia|]. destruct s as [|b u]; [cbn; lia|].
  rewrite grl_eq. destruct (bad_req_char a); [lia|]. destruct ((a =? LF) && (b =? LF)); [lia|].
  destruct (_ && _ && _); [lia|]. rewrite grl_shift by lia.
  destruct (0 <? grl (b :: u) 0) eqn:E; lia.
Qed.

Lemma get_request_len_bounds : forall l, -1 <= get_request_len l <= len l.
Proof.
  intro l. unfold get_request_len. pose proof (len_nonneg _ l).
  destruct (grl_range l) as [H0|[H0|H0]]; try lia.
  pose proof (proj1 (get_request_len_complete l (grl l 0) H0) eq_refl) as (H1 & _). lia.
Qed.

Lemma malformed_cons : forall a t, bad_req_char a = false ->
  ~ (a = 10 /\ (firstn 1 t = [10] \/ firstn 2 t = [13; 10])) ->
  all_bytes (a :: t) ->
  (malformed_head (a :: t) <-> malformed_head t).
Proof.
  intros a t Ha Hne Hb. split; intros (i & H1 & H2 & H3).
  - destruct (Z.eq_dec i 0) as [->|Hi].
    { exfalso. apply H2. cbn. apply bad_req_char_spec' in Ha as [Ha|[]]. exact Ha. }
    exists (i - 1). rewrite len_cons in H1.
    repeat split; try lia.
    + replace (Z.to_nat i) with (S (Z.to_nat (i - 1))) in H2 by lia. exact H2.
    + intros k Hk He. apply (H3 (k + 1)); [lia|].
      replace (Z.to_nat (k + 1)) with (S (Z.to_nat k)) by lia. cbn [firstn]. now apply ends_cons.
  - exists (i + 1). rewrite len_cons. repeat split; try lia.
    + replace (Z.to_nat (i + 1)) with (S (Z.to_nat i)) by lia. exact H2.
    + intros k Hk He. destruct (Z.to_nat k) as [|k'] eqn:Ek; [revert He; apply not_ends_nil|].
      cbn [firstn] in He. apply ends_cons_inv in He as [He|[Ha' [Hp|Hp]]].
      * apply (H3 (k - 1)); [lia|]. now replace (Z.to_nat (k - 1)) with k' by lia.
      * apply Hne. split; [assumption|]. left.
        destruct k' as [|[|k']]; cbn in Hp; [discriminate| |]; destruct t as [|x [|y t]]; cbn in *; congruence.
      * apply Hne. split; [assumption|]. right.
        destruct k' as [|[|k']]; cbn in Hp; [discriminate| |]; destruct t as [|x [|y t]]; cbn in *; congruence.
Qed.

Theorem get_request_len_malformed : forall l, all_bytes l ->
  (get_request_len l = -1 <-> malformed_head l).
Proof.
  unfold get_request_len. induction l as [|a s IH]; intro Hb.
  - cbn. split; [lia|]. intros (i & H & _). unfold len in H. cbn in H. lia.
  - destruct s as [|b u].
    + change (grl [a] 0) with 0. split; [lia|]. intros (i & H & _). unfold len in H. cbn in H. lia.
    + rewrite grl_eq. inversion Hb as [|? ? Ha Hs]; subst. destruct (bad_req_char a) eqn:Eb.
      { split; [intros _|reflexivity]. exists 0. split; [|split].
        - rewrite !len_cons. pose proof (len_nonneg _ u). lia.
        - cbn. now apply bad_req_char_spec.
        - intros k Hk. replace k with 0 by lia. apply not_ends_nil. }
      destruct ((a =? LF) && (b =? LF)) eqn:E1.
      { unfold LF in E1. assert (a = 10 /\ b = 10) as [-> ->] by lia. split; [lia|].
        intros (i & H1 & H2 & H3). exfalso.
        destruct (Z.eq_dec i 0) as [->|Hi0]; [apply H2; unfold head_byte; cbv [Z.to_nat Pos.to_nat Pos.iter_op Init.Nat.add nth]; lia|].
        destruct (Z.eq_dec i 1) as [->|Hi1]; [apply H2; unfold head_byte; cbv [Z.to_nat Pos.to_nat Pos.iter_op Init.Nat.add nth]; lia|].
        apply (H3 2); [lia|]. cbv [Z.to_nat Pos.to_nat Pos.iter_op Init.Nat.add firstn]. exists []. now left. }
      assert (G : ~ (a = 10 /\ (firstn 1 (b :: u) = [10] \/ firstn 2 (b :: u) = [13; 10])) ->
                  (grl (b :: u) (0 + 1) = -1 <-> malformed_head (a :: b :: u))).
      { intro Hne. rewrite (malformed_cons a (b :: u) Eb Hne Hb).
        rewrite grl_shift by lia. rewrite <- (IH Hs).
        destruct (0 <? grl (b :: u) 0) eqn:E; lia. }
      destruct ((a =? LF) && (b =? CR) && match u with c :: _ => c =? LF | [] => false end) eqn:E2.
      2:{ apply G. unfold LF, CR in *. intros [-> [H|H]]; destruct u as [|c u']; cbn in H; inversion H; subst; discriminate. }
      destruct u as [|c u']; [lia|].
        { unfold LF, CR in E2. assert (a = 10 /\ b = 13 /\ c = 10) as (-> & -> & ->) by lia.
          split; [lia|]. intros (i & H1 & H2 & H3). exfalso.
          destruct (Z.eq_dec i 0) as [->|Hi0]; [apply H2; unfold head_byte; cbv [Z.to_nat Pos.to_nat Pos.iter_op Init.Nat.add nth]; lia|].
          destruct (Z.eq_dec i 1) as [->|Hi1]; [apply H2; unfold head_byte; cbv [Z.to_nat Pos.to_nat Pos.iter_op Init.Nat.add nth]; lia|].
          destruct (Z.eq_dec i 2) as [->|Hi2]; [apply H2; unfold head_byte; cbv [Z.to_nat Pos.to_nat Pos.iter_op Init.Nat.add nth]; lia|].
          apply (H3 3); [lia|]. cbv [Z.to_nat Pos.to_nat Pos.iter_op Init.Nat.add firstn]. exists []. now right. }
Qed.

(** Stability under appending more bytes. *)
Lemma grl_app : forall l t off, 0 <= off -> grl l off <> 0 -> grl (l ++ t) off = grl l off.
Proof.
  induction l as [|a s IH]; intros t off Ho H; [cbn in H; lia|].
  destruct s as [|b u]; [cbn in H; lia|]. cbn [app]. rewrite !grl_eq in *.
  destruct (bad_req_char a); [reflexivity|]. destruct ((a =? LF) && (b =? LF)); [reflexivity|].
  destruct u as [|c u'].
  - rewrite andb_false_r in H. cbn in H. lia.
  - cbn [app]. destruct ((a =? LF) && (b =? CR) && (c =? LF)); [reflexivity|].
    apply (IH t (off + 1)); [lia|assumption].
Qed.

Theorem get_request_len_app : forall l t, get_request_len l <> 0 ->
  get_request_len (l ++ t) = get_request_len l.
Proof. intros. apply grl_app; [lia|assumption]. Qed.

(** The result is determined by the first [n] bytes. *)
Lemma get_request_len_prefix : forall l n, get_request_len l = n -> 0 < n ->
  get_request_len (firstn (Z.to_nat n) l) = n.
Proof.
  intros l n H Hn. apply get_request_len_complete in H; [|assumption].
  apply get_request_len_complete; [assumption|].
  destruct H as (H1 & H2 & H3 & H4). unfold complete_head.
  rewrite len_firstn. rewrite firstn_firstn, Nat.min_id.
  repeat split; try assumption; try lia.
  intros k Hk. rewrite firstn_firstn.
  replace (Nat.min (Z.to_nat k) (Z.to_nat n)) with (Z.to_nat k) by lia. now apply H4.
Qed.

(** ** Tokenizer *)

(** List-level reading of skip_quoted: the word, and what follows the
    delimiter and white space. *)
Definition nd (delims : bytes) (c : Z) : bool := negb (memb c delims).
Definition cut (delims ws s : bytes) : bytes * bytes :=
  (take_while (nd delims) s,
   match drop_while (nd delims) s with
   | [] => []
   | _ :: t => drop_while (fun c => memb c ws) t
   end).

Lemma zero_n_spec : forall s pre post, 
  zero_n (pre ++ s ++ post) (len pre) (length s) = Ok (pre ++ repeat 0 (length s) ++ post).
Proof.
  induction s as [|c s IH]; intros pre post; cbn [length zero_n repeat app]; [reflexivity|].
  rewrite wr_ok by (rewrite len_app, len_cons; pose proof (len_nonneg _ pre); pose proof (len_nonneg _ (s ++ post)); lia).
  cbn [bind]. unfold len at 1. rewrite Nat2Z.id.
  rewrite set_nth_split by (rewrite app_length; cbn; lia).
  rewrite firstn_app, firstn_all, Nat.sub_diag. cbn [firstn]. rewrite app_nil_r.
  rewrite skipn_app. rewrite (skipn_all2 pre) by lia.
  replace (S (length pre) - length pre)%nat with 1%nat by lia. cbn [skipn app].
  specialize (IH (pre ++ [0]) post). rewrite <- !app_assoc in IH. cbn [app] in IH.
  rewrite len_app in IH. change (len [0]) with 1 in IH. exact IH.
Qed.

Lemma zero_range_spec : forall s pre post i j, i = len pre -> j = len pre + len s ->
  zero_range (pre ++ s ++ post) i j = Ok (pre ++ repeat 0 (length s) ++ post).
Proof.
  intros. subst. unfold zero_range.
  replace (Z.to_nat (len pre + len s - len pre)) with (length s) by (unfold len; lia).
  apply zero_n_spec.
Qed.

Lemma skipn_len_app : forall (pre s : bytes), skipn (Z.to_nat (len pre)) (pre ++ s) = s.
Proof. intros. unfold len. rewrite Nat2Z.id, skipn_app, skipn_all, Nat.sub_diag. reflexivity. Qed.

Lemma firstn_len_app : forall (pre s : bytes), firstn (Z.to_nat (len pre)) (pre ++ s) = pre.
Proof. intros. unfold len. rewrite Nat2Z.id, firstn_app, firstn_all, Nat.sub_diag. cbn. apply app_nil_r. Qed.

Lemma cstr_at_app : forall pre s post, no_nul s -> cstr_at (pre ++ s ++ 0 :: post) (len pre) = Ok s.
Proof.
  intros. rewrite cstr_at_len. pose proof (len_nonneg _ pre). rewrite len_app.
  pose proof (len_nonneg _ (s ++ 0 :: post)).
  replace ((0 <=? len pre) && (len pre <=? len pre + len (s ++ 0 :: post))) with true by lia.
  rewrite skipn_len_app. now apply cstr_app_nul.
Qed.

Lemma rd_app : forall pre c post, rd (pre ++ c :: post) (len pre) = Ok c.
Proof.
  intros. rewrite rd_ok.
  - unfold len. rewrite Nat2Z.id, app_nth2, Nat.sub_diag by lia. reflexivity.
  - rewrite len_app, len_cons. pose proof (len_nonneg _ pre). pose proof (len_nonneg _ post). lia.
Qed.

Lemma no_nul_take : forall f s, no_nul s -> no_nul (take_while f s).
Proof. intros f s H. rewrite <- (take_drop_while f s) in H. now apply no_nul_app in H. Qed.
Lemma no_nul_drop : forall f s, no_nul s -> no_nul (drop_while f s).
Proof. intros f s H. rewrite <- (take_drop_while f s) in H. now apply no_nul_app in H. Qed.

(** Part of [s] that is overwritten with NULs by one skip. *)
Definition gap (delims ws s : bytes) : bytes :=
  match drop_while (nd delims) s with
  | [] => []
  | d :: t => d :: take_while (fun c => memb c ws) t
  end.

Lemma cut_gap : forall delims ws s,
  s = fst (cut delims ws s) ++ gap delims ws s ++ snd (cut delims ws s).
Proof.
  intros. unfold cut, gap. cbn [fst snd].
  rewrite <- (take_drop_while (nd delims) s) at 1. f_equal.
  destruct (drop_while (nd delims) s) as [|d t]; [reflexivity|].
  cbn. now rewrite take_drop_while.
Qed.

Lemma skip_quoted_spec : forall pre s post delims ws,
  no_nul s ->
  skip_quoted (pre ++ s ++ 0 :: post) (len pre) delims ws 0 =
  Ok (pre ++ fst (cut delims ws s) ++ repeat 0 (length (gap delims ws s)) ++ snd (cut delims ws s) ++ 0 :: post,
      len pre, len pre + len (fst (cut delims ws s)) + len (gap delims ws s)).
Proof.
  intros pre s post delims ws Hs. unfold skip_quoted.
  rewrite cstr_at_app by assumption. cbn [bind].
  cbv zeta. unfold est_strcspn. fold (nd delims). set (wd := take_while (nd delims) s).
  change (fst (cut delims ws s)) with wd.
  assert (Hsplit : s = wd ++ drop_while (nd delims) s) by (symmetry; apply take_drop_while).
  assert (Hwd : no_nul wd) by now apply no_nul_take.
  assert (Hm1 : (if len pre <? len pre + len wd
     then ' (m', p, e) <- quote_loop (S (length (pre ++ s ++ 0 :: post))) (pre ++ s ++ 0 :: post)
              (len pre + len wd - 1) (len pre + len wd) delims 0 ;;
          m'' <- zero_range m' (p + 1) e ;; Ok (m'', e)
     else Ok (pre ++ s ++ 0 :: post, len pre + len wd))
     = Ok (pre ++ s ++ 0 :: post, len pre + len wd)).
  { destruct (len pre <? len pre + len wd) eqn:E; [|reflexivity].
    cbn [quote_loop].
    destruct (exists_last (l := wd)) as [wd' [c Hc]]; [intro Hn; rewrite Hn in E; cbn in E; lia|].
    assert (Hr : rd (pre ++ s ++ 0 :: post) (len pre + len wd - 1) = Ok c).
    { rewrite Hsplit, Hc. replace (len pre + len (wd' ++ [c]) - 1) with (len (pre ++ wd')).
      - replace (pre ++ ((wd' ++ [c]) ++ drop_while (nd delims) s) ++ 0 :: post)
          with ((pre ++ wd') ++ c :: (drop_while (nd delims) s ++ 0 :: post)).
        + apply rd_app.
        + rewrite <- !app_assoc. reflexivity.
      - rewrite !len_app. change (len [c]) with 1. lia. }
    rewrite Hr. cbn [bind].
    assert (c <> 0). { intro; subst c. apply Hwd. rewrite Hc. apply in_or_app. right. now left. }
    replace (negb (c =? 0)) with true by lia. cbn [bind].
    unfold zero_range. replace (Z.to_nat (len pre + len wd - (len pre + len wd - 1 + 1))) with 0%nat by lia.
    reflexivity. }
  match goal with |- bind ?e ?k = _ =>
    replace e with (Ok (pre ++ s ++ 0 :: post, len pre + len wd) : res (bytes * Z)) by (symmetry; exact Hm1) end.
  cbn [bind]. clear Hm1.
  unfold gap, cut. cbn [snd].
  destruct (drop_while (nd delims) s) as [|d t] eqn:Ed.
  - rewrite app_nil_r in Hsplit. rewrite Hsplit at 1.
    replace (pre ++ wd ++ 0 :: post) with ((pre ++ wd) ++ 0 :: post) by now rewrite <- app_assoc.
    replace (len pre + len wd) with (len (pre ++ wd)) by apply len_app.
    rewrite rd_app. cbn [bind Z.eqb]. rewrite Hsplit. cbn [length repeat app].
    rewrite len_app. change (len (@nil Z)) with 0. rewrite Z.add_0_r. reflexivity.
  - assert (Hd : d <> 0 /\ no_nul t).
    { rewrite Hsplit in Hs. apply no_nul_app in Hs as [_ Hs]. now apply no_nul_cons in Hs. }
    destruct Hd as [Hd Ht].
    assert (Hm : pre ++ s ++ 0 :: post = (pre ++ wd) ++ d :: t ++ 0 :: post).
    { rewrite Hsplit. rewrite <- !app_assoc. reflexivity. }
    rewrite Hm. replace (len pre + len wd) with (len (pre ++ wd)) by apply len_app.
    rewrite rd_app. cbn [bind]. replace (d =? 0) with false by lia.
    replace (len (pre ++ wd) + 1) with (len ((pre ++ wd) ++ [d])) by (rewrite (len_app _ _ [d]); reflexivity).
    replace ((pre ++ wd) ++ d :: t ++ 0 :: post) with (((pre ++ wd) ++ [d]) ++ t ++ 0 :: post)
      by (rewrite <- !app_assoc; reflexivity).
    rewrite cstr_at_app by assumption. cbn [bind]. unfold est_strspn.
    set (g := take_while (fun c => memb c ws) t).
    assert (Htg : t = g ++ drop_while (fun c => memb c ws) t) by (symmetry; apply take_drop_while).
    replace (((pre ++ wd) ++ [d]) ++ t ++ 0 :: post)
      with ((pre ++ wd) ++ (d :: g) ++ (drop_while (fun c => memb c ws) t ++ 0 :: post)).
    2:{ rewrite Htg at 2. rewrite <- !app_assoc. reflexivity. }
    rewrite zero_range_spec; [|reflexivity|rewrite !len_app, !len_cons, len_nil; lia].
    cbn [bind]. rewrite <- !app_assoc. do 2 f_equal.
    rewrite !len_app, !len_cons, len_nil. lia.
Qed.

Lemma skip_spec : forall pre s post delims, no_nul s ->
  skip (pre ++ s ++ 0 :: post) (len pre) delims =
  Ok (pre ++ fst (cut delims delims s) ++ repeat 0 (length (gap delims delims s)) ++ snd (cut delims delims s) ++ 0 :: post,
      len pre, len pre + len (fst (cut delims delims s)) + len (gap delims delims s)).
Proof. intros. now apply skip_quoted_spec. Qed.

Lemma cut_no_nul : forall d w s, no_nul s -> no_nul (fst (cut d w s)) /\ no_nul (snd (cut d w s)).
Proof.
  intros d w s H. pose proof (cut_gap d w s) as E. rewrite E in H.
  apply no_nul_app in H as [H1 H2]. apply no_nul_app in H2 as [_ H3]. now split.
Qed.

(** The text found at offset [o]. *)
Definition has_text (m : bytes) (o : Z) (t : bytes) : Prop :=
  exists p q, m = p ++ t ++ 0 :: q /\ no_nul t /\ o = len p.

Lemma has_text_cstr : forall m o t, has_text m o t -> cstr_at m o = Ok t.
Proof. intros m o t (p & q & -> & H & ->). now apply cstr_at_app. Qed.

(** One skip step as a transition between (pre, s) splittings. *)
Lemma skip_step : forall pre s post delims ws, no_nul s ->
  exists pre',
    skip_quoted (pre ++ s ++ 0 :: post) (len pre) delims ws 0 =
      Ok (pre' ++ snd (cut delims ws s) ++ 0 :: post, len pre, len pre')
    /\ len pre' + len (snd (cut delims ws s)) = len pre + len s
    /\ (exists z, pre' = pre ++ fst (cut delims ws s) ++ repeat 0 z
         /\ (z = 0%nat -> snd (cut delims ws s) = [])).
Proof.
  intros. exists (pre ++ fst (cut delims ws s) ++ repeat 0 (length (gap delims ws s))).
  split; [|split].
  - rewrite skip_quoted_spec by assumption. f_equal. rewrite <- !app_assoc.
    f_equal. rewrite !len_app, len_repeat. unfold len. lia.
  - pose proof (f_equal len (cut_gap delims ws s)) as E. rewrite !len_app in *. rewrite len_repeat.
    unfold len in *. lia.
  - exists (length (gap delims ws s)). split; [reflexivity|].
    unfold gap, cut. cbn. destruct (drop_while (nd delims) s); [reflexivity|discriminate].
Qed.

(** Header list at the level of strings. *)
Fixpoint hdrs_text (n : nat) (s : bytes) : list (bytes * bytes) :=
  match n with
  | O => []
  | S n' =>
    let '(name, r1) := cut [58] [32] s in
    let '(value, r2) := cut [13; 10] [13; 10] r1 in
    match name with
    | [] => []
    | _ => (name, value) :: hdrs_text n' r2
    end
  end.

Lemma has_text_step : forall pre w z rest post,
  no_nul w -> (z = 0%nat -> rest = []) ->
  has_text ((pre ++ w ++ repeat 0 z) ++ rest ++ 0 :: post) (len pre) w.
Proof.
  intros pre w z rest post Hw Hz. destruct z as [|z].
  - rewrite (Hz eq_refl). exists pre, post. cbn. rewrite app_nil_r, <- app_assoc. auto.
  - exists pre, (repeat 0 z ++ rest ++ 0 :: post). rewrite <- !app_assoc. cbn. auto.
Qed.

(** If the remaining text changes only after the NUL or is empty, texts stay. *)
Lemma has_text_frame : forall (pre w : bytes) z (rest post : bytes) o,
  no_nul w -> (z = 0%nat -> rest = []) -> o = len pre ->
  forall rest' : bytes, len rest' = len rest ->
  has_text ((pre ++ w ++ repeat 0 z) ++ rest' ++ 0 :: post) o w.
Proof.
  intros. subst. apply has_text_step; [assumption|].
  intro Hz. apply len_0_nil. rewrite H2, (H0 Hz). reflexivity.
Qed.

Lemma parse_headers_spec : forall n pre s post, no_nul s ->
  exists s' cur' hs,
    parse_http_headers n (pre ++ s ++ 0 :: post) (len pre) = Ok (pre ++ s' ++ 0 :: post, cur', hs)
    /\ len s' = len s
    /\ (length hs <= n)%nat
    /\ texts (pre ++ s' ++ 0 :: post) hs = Ok (hdrs_text n s).
Proof.
  induction n as [|n IH]; intros pre s post Hs.
  - exists s, (len pre), []. repeat split; auto.
  - cbn [parse_http_headers hdrs_text].
    destruct (skip_step pre s post [58] [SP] Hs) as (pre1 & E1 & L1 & z1 & P1 & Z1).
    rewrite E1. cbn [bind]. clear E1.
    destruct (cut_no_nul [58] [SP] s Hs) as [Hn1 Hr1].
    change [32] with [SP].
    destruct (cut [58] [SP] s) as [name r1] eqn:C1. cbn [fst snd] in *.
    destruct (skip_step pre1 r1 post [CR; LF] [CR; LF] Hr1) as (pre2 & E2 & L2 & z2 & P2 & Z2).
    unfold skip. rewrite E2. cbn [bind]. clear E2.
    destruct (cut_no_nul [CR; LF] [CR; LF] r1 Hr1) as [Hn2 Hr2].
    change [13; 10] with [CR; LF].
    destruct (cut [CR; LF] [CR; LF] r1) as [value r2] eqn:C2. cbn [fst snd] in *.
    assert (Hname : forall r2', len r2' = len r2 ->
              has_text (pre2 ++ r2' ++ 0 :: post) (len pre) name).
    { intros r2' Hl. subst pre2 pre1. rewrite <- !app_assoc.
      destruct z1 as [|z1].
      - specialize (Z1 eq_refl). subst r1. unfold cut in C2. cbn in C2. inversion C2; subst.
        assert (z2 = 0%nat). { rewrite !len_app, !len_repeat in L2. change (len (@nil Z)) with 0 in L2. lia. } subst z2.
        assert (r2' = []) by (apply len_0_nil; rewrite Hl; reflexivity). subst r2'.
        cbn. exists pre, post. auto.
      - exists pre, (repeat 0 z1 ++ value ++ repeat 0 z2 ++ r2' ++ 0 :: post). auto. }
    assert (Hvalue : forall r2', len r2' = len r2 ->
              has_text (pre2 ++ r2' ++ 0 :: post) (len pre1) value).
    { intros r2' Hl. subst pre2. eapply has_text_frame; eauto. }
    assert (Hrd : rd (pre2 ++ r2 ++ 0 :: post) (len pre) = Ok (match name with [] => 0 | c :: _ => c end)).
    { destruct (Hname r2 eq_refl) as (p & q & Em & _ & Ep). rewrite Em, Ep.
      destruct name; cbn [app]; apply rd_app. }
    rewrite Hrd. cbn [bind].
    assert (Hpp : exists x, pre2 ++ r2 ++ 0 :: post = pre ++ x ++ 0 :: post /\ len x = len s /\
              forall r2', len r2' = len r2 -> exists x', pre2 ++ r2' ++ 0 :: post = pre ++ x' ++ 0 :: post /\ len x' = len s).
    { assert (G : forall r2', len r2' = len r2 -> exists x', pre2 ++ r2' ++ 0 :: post = pre ++ x' ++ 0 :: post /\ len x' = len s).
      { intros r2' Hl. subst pre2 pre1. exists (name ++ repeat 0 z1 ++ value ++ repeat 0 z2 ++ r2').
        split; [now rewrite <- !app_assoc|]. rewrite !len_app, !len_repeat in *. lia. }
      destruct (G r2 eq_refl) as (x & Ex & Lx). exists x. auto. }
    destruct Hpp as (x & Ex & Lx & Hall).
    destruct name as [|c name].
    + exists x, (len pre2), []. rewrite <- Ex. cbn. repeat split; auto; lia.
    + assert (c <> 0) by now apply no_nul_cons in Hn1.
      replace (c =? 0) with false by lia.
      destruct (IH pre2 r2 post Hr2) as (s' & cur' & hs & E3 & L3 & Ln & T3).
      rewrite E3. cbn [bind].
      destruct (Hall s' L3) as (x' & Ex' & Lx').
      exists x', cur', ((len pre, len pre1) :: hs).
      rewrite <- Ex'. repeat split; auto.
      * cbn. lia.
      * cbn [texts].
        rewrite (has_text_cstr _ _ _ (Hname s' L3)), (has_text_cstr _ _ _ (Hvalue s' L3)), T3. reflexivity.
Qed.

(** The request at the level of strings: [h] is the head without its last byte. *)
Definition req_text (h : bytes) : bytes * bytes * bytes * list (bytes * bytes) :=
  let s0 := drop_while isspace h in
  let '(meth, s1) := cut [32] [32] s0 in
  let '(uri, s2) := cut [32] [32] s1 in
  let '(ver, s3) := cut [13; 10] [13; 10] s2 in
  (meth, uri, ver, hdrs_text 64 s3).

Lemma head_no_nul : forall l n, complete_head l n -> no_nul (firstn (Z.to_nat (n - 1)) l).
Proof.
  intros l n (H1 & H2 & _) Hin.
  replace (Z.to_nat n) with (Z.to_nat (n - 1) + 1)%nat in H2 by lia.
  assert (Hin' : In 0 (firstn (Z.to_nat (n - 1) + 1) l)).
  { rewrite <- (firstn_skipn (Z.to_nat (n - 1)) l), firstn_app. apply in_or_app. left.
    rewrite firstn_firstn. replace (Nat.min (Z.to_nat (n - 1) + 1) (Z.to_nat (n - 1))) with (Z.to_nat (n - 1)) by lia.
    assumption. }
  rewrite Forall_forall in H2. specialize (H2 0 Hin'). unfold head_byte in H2. lia.
Qed.

Theorem parse_http_message_spec : forall buf buflen,
  0 <= buflen <= len buf ->
  let rl := get_request_len (firstn (Z.to_nat buflen) buf) in
  (rl <= 0 /\ parse_http_message buf buflen = Ok (rl, None))
  \/ (0 < rl /\ exists m ri,
      parse_http_message buf buflen = Ok (rl, Some (m, ri))
      /\ len m = len buf
      /\ skipn (Z.to_nat rl) m = skipn (Z.to_nat rl) buf
      /\ (length (ri_headers ri) <= 64)%nat
      /\ cstr_at m (ri_method ri) = Ok (let '(a, _, _, _) := req_text (firstn (Z.to_nat (rl - 1)) buf) in a)
      /\ cstr_at m (ri_uri ri) = Ok (let '(_, a, _, _) := req_text (firstn (Z.to_nat (rl - 1)) buf) in a)
      /\ cstr_at m (ri_version ri) = Ok (let '(_, _, a, _) := req_text (firstn (Z.to_nat (rl - 1)) buf) in a)
      /\ texts m (ri_headers ri) = Ok (let '(_, _, _, a) := req_text (firstn (Z.to_nat (rl - 1)) buf) in a)).
Proof.
  intros buf buflen Hb rl. unfold parse_http_message.
  replace ((0 <=? buflen) && (buflen <=? len buf)) with true by lia. fold rl.
  destruct (0 <? rl) eqn:Erl; [right|left; split; [lia|reflexivity]].
  split; [lia|].
  pose proof (proj1 (get_request_len_complete _ rl ltac:(lia)) eq_refl) as Hc.
  assert (Hlb : 0 < rl <= buflen).
  { destruct Hc as (Hc & _). rewrite len_firstn in Hc. lia. }
  assert (Hnn : no_nul (firstn (Z.to_nat (rl - 1)) buf)).
  { pose proof (head_no_nul _ _ Hc) as H. rewrite firstn_firstn in H.
    replace (Nat.min (Z.to_nat (rl - 1)) (Z.to_nat buflen)) with (Z.to_nat (rl - 1)) in H by lia. assumption. }
  rewrite wr_ok by lia. cbn [bind].
  rewrite set_nth_split by (unfold len in *; lia).
  set (h := firstn (Z.to_nat (rl - 1)) buf) in *.
  set (post := skipn (S (Z.to_nat (rl - 1))) buf).
  assert (Hlen : len h = rl - 1) by (unfold h; rewrite len_firstn; lia).
  assert (Hlp : len post = len buf - rl).
  { unfold post. rewrite len_skipn. lia. }
  pose proof (cstr_at_app [] h post Hnn) as Ec. cbn [app] in Ec. change (len []) with 0 in Ec.
  rewrite Ec. cbn [bind]. clear Ec.
  unfold req_text.
  set (sp := take_while isspace h). set (s0 := drop_while isspace h).
  assert (Hh : h = sp ++ s0) by (symmetry; apply take_drop_while).
  assert (Hs0 : no_nul s0) by now apply no_nul_drop.
  replace (h ++ 0 :: post) with (sp ++ s0 ++ 0 :: post) by (rewrite Hh at 1; now rewrite <- app_assoc).
  (* method *)
  change [32] with [SP].
  destruct (skip_step sp s0 post [SP] [SP] Hs0) as (pre1 & E1 & L1 & z1 & P1 & Z1).
  unfold skip at 1. rewrite E1. cbn [bind]. clear E1.
  destruct (cut_no_nul [SP] [SP] s0 Hs0) as [Hn1 Hr1].
  destruct (cut [SP] [SP] s0) as [meth s1] eqn:C1. cbn [fst snd] in *.
  (* uri *)
  destruct (skip_step pre1 s1 post [SP] [SP] Hr1) as (pre2 & E2 & L2 & z2 & P2 & Z2).
  unfold skip at 1. rewrite E2. cbn [bind]. clear E2.
  destruct (cut_no_nul [SP] [SP] s1 Hr1) as [Hn2 Hr2].
  destruct (cut [SP] [SP] s1) as [uri s2] eqn:C2. cbn [fst snd] in *.
  (* version *)
  destruct (skip_step pre2 s2 post [CR; LF] [CR; LF] Hr2) as (pre3 & E3 & L3 & z3 & P3 & Z3).
  unfold skip at 1. rewrite E3. cbn [bind]. clear E3.
  destruct (cut_no_nul [CR; LF] [CR; LF] s2 Hr2) as [Hn3 Hr3].
  change [13; 10] with [CR; LF].
  destruct (cut [CR; LF] [CR; LF] s2) as [ver s3] eqn:C3. cbn [fst snd] in *.
  destruct (parse_headers_spec MAX_REQ_HEADERS pre3 s3 post Hr3) as (s' & cur' & hs & E4 & L4 & Ln & T4).
  change (SP :: nil) with [SP]. rewrite E4. cbn [bind].
  eexists _, _. split; [reflexivity|]. cbn [ri_headers ri_method ri_uri ri_version].
  repeat split.
  - rewrite !len_app, len_cons.
    assert (len sp + len s0 = rl - 1) by (rewrite <- Hlen, Hh; now rewrite len_app). lia.
  - replace (skipn (Z.to_nat rl) buf) with post by (unfold post; f_equal; lia).
    assert (len sp + len s0 = rl - 1) by (rewrite <- Hlen, Hh; now rewrite len_app).
    replace (pre3 ++ s' ++ 0 :: post) with ((pre3 ++ s' ++ [0]) ++ post) by (now rewrite <- !app_assoc).
    replace rl with (len (pre3 ++ s' ++ [0])) by (rewrite !len_app; change (len [0]) with 1; lia).
    apply skipn_len_app.
  - assumption.
  - apply has_text_cstr. subst pre3 pre2 pre1. rewrite <- !app_assoc.
    destruct z1 as [|z1].
    + specialize (Z1 eq_refl). subst s1. unfold cut in C2. cbn in C2. inversion C2; subst.
      unfold cut in C3. cbn in C3. inversion C3; subst.
      rewrite !len_app, !len_repeat in *. change (len (@nil Z)) with 0 in *.
      assert (z2 = 0%nat) by lia. assert (z3 = 0%nat) by lia. subst.
      assert (s' = []) by (apply len_0_nil; lia). subst. exists sp, post. auto.
    + eexists sp, _. split; [reflexivity|auto].
  - apply has_text_cstr. subst pre3 pre2. rewrite <- !app_assoc.
    destruct z2 as [|z2].
    + specialize (Z2 eq_refl). subst s2. unfold cut in C3. cbn in C3. inversion C3; subst.
      rewrite !len_app, !len_repeat in *. change (len (@nil Z)) with 0 in *.
      assert (z3 = 0%nat) by lia. subst.
      assert (s' = []) by (apply len_0_nil; lia). subst. eexists _, post. split; [reflexivity|]. rewrite !len_app, len_repeat. auto.
    + eexists pre1, _. split; [reflexivity|auto].
  - apply has_text_cstr. subst pre3.
    eapply has_text_frame; eauto.
  - exact T4.
Qed.

(** ** Every reported text is a piece of the received bytes *)
Lemma sub_bytes_refl : forall l, sub_bytes l l.
Proof. intro l. exists [], []. now rewrite app_nil_r. Qed.
Lemma sub_bytes_trans : forall a b c, sub_bytes a b -> sub_bytes b c -> sub_bytes a c.
Proof.
  intros a b c (x & y & ->) (u & v & ->). exists (u ++ x), (y ++ v). now rewrite <- !app_assoc.
Qed.
Lemma cut_sub : forall d w s, sub_bytes (fst (cut d w s)) s /\ sub_bytes (snd (cut d w s)) s.
Proof.
  intros d w s. pose proof (cut_gap d w s) as E. split.
  - exists [], (gap d w s ++ snd (cut d w s)). exact E.
  - exists (fst (cut d w s) ++ gap d w s), []. rewrite app_nil_r, <- app_assoc. exact E.
Qed.
Lemma hdrs_text_sub : forall n s, Forall (fun h => sub_bytes (fst h) s /\ sub_bytes (snd h) s) (hdrs_text n s).
Proof.
  induction n as [|n IH]; intro s; cbn [hdrs_text]; [constructor|].
  destruct (cut_sub [58] [32] s) as [A1 A2]. destruct (cut [58] [32] s) as [name r1]. cbn [fst snd] in *.
  destruct (cut_sub [13; 10] [13; 10] r1) as [B1 B2]. destruct (cut [13; 10] [13; 10] r1) as [value r2]. cbn [fst snd] in *.
  destruct name as [|c name]; [constructor|]. constructor; cbn [fst snd].
  - split; [assumption|]. eapply sub_bytes_trans; eauto.
  - eapply Forall_impl; [|apply IH]. cbn. intros h [H1 H2].
    split; (eapply sub_bytes_trans; [eassumption|]; eapply sub_bytes_trans; eauto).
Qed.
Lemma req_text_sub : forall h meth uri ver hs, req_text h = (meth, uri, ver, hs) ->
  sub_bytes meth h /\ sub_bytes uri h /\ sub_bytes ver h
  /\ Forall (fun x => sub_bytes (fst x) h /\ sub_bytes (snd x) h) hs.
Proof.
  intros h meth uri ver hs. unfold req_text.
  assert (H0 : sub_bytes (drop_while isspace h) h).
  { exists (take_while isspace h), []. rewrite app_nil_r. symmetry. apply take_drop_while. }
  destruct (cut_sub [32] [32] (drop_while isspace h)) as [A1 A2].
  destruct (cut [32] [32] (drop_while isspace h)) as [a s1]. cbn [fst snd] in *.
  destruct (cut_sub [32] [32] s1) as [B1 B2]. destruct (cut [32] [32] s1) as [b s2]. cbn [fst snd] in *.
  destruct (cut_sub [13; 10] [13; 10] s2) as [C1 C2]. destruct (cut [13; 10] [13; 10] s2) as [c s3]. cbn [fst snd] in *.
  intro E. apply pair_equal_spec in E as [E <-]. apply pair_equal_spec in E as [E <-].
  apply pair_equal_spec in E as [<- <-].
  assert (S1 : sub_bytes s1 h) by (eapply sub_bytes_trans; eauto).
  assert (S2 : sub_bytes s2 h) by (eapply sub_bytes_trans; eauto).
  assert (S3 : sub_bytes s3 h) by (eapply sub_bytes_trans; eauto).
  repeat split; try (eapply sub_bytes_trans; eassumption).
  eapply Forall_impl; [|apply hdrs_text_sub]. cbn. intros x [H1 H2].
  split; eapply sub_bytes_trans; eassumption.
Qed.

Lemma texts_offsets : forall m l r, texts m l = Ok r ->
  map (fun p => (cstr_at m (fst p), cstr_at m (snd p))) l = map (fun h => (Ok (fst h), Ok (snd h))) r.
Proof.
  induction l as [|[a b] l IH]; intros r H; cbn in H; [inversion H; reflexivity|].
  destruct (cstr_at m a) eqn:Ea; [|discriminate]. destruct (cstr_at m b) eqn:Eb; [|discriminate].
  destruct (texts m l) eqn:Et; [|discriminate]. cbn in H. inversion H; subst. cbn. rewrite Ea, Eb.
  f_equal. now apply IH.
Qed.

(** All string offsets of a request. *)
Definition offsets (ri : req_info) : list Z :=
  ri_method ri :: ri_uri ri :: ri_version ri :: flat_map (fun p => [fst p; snd p]) (ri_headers ri).

Theorem parse_http_message_safe : forall buf buflen, 0 <= buflen <= len buf ->
  exists rl r, parse_http_message buf buflen = Ok (rl, r) /\
  match r with
  | None => rl <= 0
  | Some (m, ri) =>
    0 < rl <= buflen /\ len m = len buf /\ skipn (Z.to_nat rl) m = skipn (Z.to_nat rl) buf
    /\ len (ri_headers ri) <= 64
    /\ forall o, In o (offsets ri) ->
         exists t, cstr_at m o = Ok t /\ sub_bytes t (firstn (Z.to_nat rl) buf)
  end.
Proof.
  intros buf buflen Hb. pose proof (parse_http_message_spec buf buflen Hb) as H. cbv zeta in H.
  destruct H as [(H1 & H2)|(Hp & m & ri & E & Lm & Fr & Lh & T1 & T2 & T3 & T4)].
  - eexists _, None. split; [exact H2|assumption].
  - eexists _, (Some (m, ri)). split; [exact E|].
    pose proof (get_request_len_bounds (firstn (Z.to_nat buflen) buf)) as B. rewrite len_firstn in B.
    set (rl := get_request_len _) in *.
    repeat split; try lia; try assumption; try (unfold len; lia).
    destruct (req_text (firstn (Z.to_nat (rl - 1)) buf)) as [[[a b] c] hs] eqn:Er.
    destruct (req_text_sub _ _ _ _ _ Er) as (S1 & S2 & S3 & S4).
    assert (Hsub : sub_bytes (firstn (Z.to_nat (rl - 1)) buf) (firstn (Z.to_nat rl) buf)).
    { exists [], (skipn (Z.to_nat (rl - 1)) (firstn (Z.to_nat rl) buf)). cbn [app].
      rewrite <- (firstn_skipn (Z.to_nat (rl - 1)) (firstn (Z.to_nat rl) buf)) at 1.
      rewrite firstn_firstn. f_equal. f_equal. lia. }
    intros o [<-|[<-|[<-|Ho]]].
    + exists a. split; [assumption|]. eapply sub_bytes_trans; eauto.
    + exists b. split; [assumption|]. eapply sub_bytes_trans; eauto.
    + exists c. split; [assumption|]. eapply sub_bytes_trans; eauto.
    + apply in_flat_map in Ho as ([o1 o2] & Hin & Ho). apply texts_offsets in T4.
      assert (Hin' : In (cstr_at m o1, cstr_at m o2) (map (fun h : bytes * bytes => (Ok (fst h), Ok (snd h))) hs)).
      { rewrite <- T4. apply in_map_iff. exists (o1, o2). auto. }
      apply in_map_iff in Hin' as ([x y] & Exy & Hxy). inversion Exy as [[E1 E2]].
      rewrite Forall_forall in S4. destruct (S4 _ Hxy) as [Q1 Q2]. cbn [fst snd] in *.
      destruct Ho as [<-|[<-|[]]]; [exists x|exists y]; (split; [congruence|eapply sub_bytes_trans; eauto]).
Qed.
