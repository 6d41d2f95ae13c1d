(** The JSON tokenizer on arbitrary texts. *)
From Coq Require Import String ZArith List Bool Lia ZifyBool ZifyNat.
From Verif Require Import Base Model.Jsmn Spec.Json Proofs.Jsmn.
Import ListNotations.
Open Scope Z_scope.

(** ** JSON texts *)
Theorem parse_json : forall w1 v w2 k, ws w1 -> valid v -> ws w2 -> 0 <= k ->
  let s := w1 ++ text v ++ w2 in
  let ts := tokens v (len w1) in
  (len ts <= k -> exists sup, jsmn_parse jsmn_init s (len s) (Some k) = Ok (len ts, {| p_pos := len s; p_super := sup; p_toks := ts |}))
  /\ (k < len ts -> exists q, jsmn_parse jsmn_init s (len s) (Some k) = Ok (JSMN_ERROR_NOMEM, q)).
Proof.
  intros w1 v w2 k W1 V W2 K s ts.
  assert (Hr : jsmn_parse jsmn_init s (len s) (Some k) = run s (Some k) (P 0 (-1) []) 0).
  { unfold jsmn_parse. cbn [jsmn_init p_pos p_toks]. replace ((0 <=? 0) && (len s <=? len s)) with true by lia.
    replace (Z.to_nat (len s)) with (length s) by (unfold len; lia). rewrite firstn_all. reflexivity. }
  rewrite Hr. unfold s. rewrite run_ws by exact W1. cbn [Z.add].
  assert (St : stops w2) by (rewrite <- (app_nil_r w2); apply stops_ws; [exact W2|exact Logic.I]).
  pose proof (proj1 json_exact v V w2 k (len w1) (-1) [] 0 (len_nonneg _ w1) St ltac:(unfold ok_super; cbn; lia)) as H.
  unfold fits in H. change (len (@nil tok)) with 0 in H. fold ts in H. cbn [bump Z.eqb Datatypes.app] in H.
  split; intro L.
  - replace (0 + len ts <=? k) with true in H by lia. destruct H as (sup & _ & H). rewrite H.
    pose proof (run_ws w2 W2 []) as Hw. rewrite app_nil_r in Hw. rewrite Hw, run_end. cbn [P p_toks].
    replace (last_index is_open _ _ =? -1) with true.
    2: { replace (bump (-1) [] ++ ts) with ([] ++ ts) by reflexivity.
         rewrite last_index_skip; [reflexivity|]. apply (proj1 tokens_closed). apply len_nonneg. }
    exists sup. rewrite !len_app. replace (len w1 + (len (text v) + len w2)) with (len w1 + len (text v) + len w2) by lia. reflexivity.
  - replace (0 + len ts <=? k) with false in H by lia. exact H.
Qed.

(** ** Arbitrary texts *)
Definition related (a b : tok) : Prop :=
  if is_open a then t_start a < t_start b
  else t_end a <= t_start b \/ (is_container a = true /\ t_start a < t_start b /\ is_open b = false /\ t_end b <= t_end a - 1).
Definition opened (s : bytes) (pos : Z) (t : tok) : Prop :=
  0 <= t_start t < pos /\ ((t_type t = JSMN_OBJECT /\ char_at s (t_start t) 123) \/ (t_type t = JSMN_ARRAY /\ char_at s (t_start t) 91)).
Definition good (s : bytes) (pos : Z) (t : tok) : Prop :=
  if is_open t then opened s pos t else placed s t /\ t_end t <= pos.
Record inv (s : bytes) (p : parser) : Prop := {
  inv_pos : 0 <= p_pos p <= len s;
  inv_nul : no_nul (firstn (Z.to_nat (p_pos p)) s);
  inv_super : ok_super (p_super p) (p_toks p);
  inv_good : forall i, (i < length (p_toks p))%nat -> good s (p_pos p) (nth i (p_toks p) tok0);
  inv_pairs : forall i j, (i < j < length (p_toks p))%nat -> related (nth i (p_toks p) tok0) (nth j (p_toks p) tok0) }.

Lemma good_later : forall s a b t, a <= b -> good s a t -> good s b t.
Proof.
  intros s a b t L G. unfold good, opened in *. destruct (is_open t); [|destruct G; split; [assumption|lia]].
  destruct G as [G1 G2]. split; [lia|exact G2].
Qed.
Lemma good_start : forall s pos t, good s pos t -> 0 <= t_start t <= pos /\ (is_open t = true -> t_start t < pos).
Proof. intros s pos t G. unfold good, opened, placed in G. destruct (is_open t); [split; [lia|]; intro; lia|]. split; [lia|discriminate]. Qed.
Lemma good_inc : forall s pos t, good s pos (inc t) <-> good s pos t.
Proof. reflexivity. Qed.
Lemma related_inc1 : forall a b, related (inc a) b <-> related a b.
Proof. reflexivity. Qed.
Lemma related_inc2 : forall a b, related a (inc b) <-> related a b.
Proof. reflexivity. Qed.

Lemma piece_nul : forall s a b pos, 0 <= a <= b -> b <= pos -> no_nul (firstn (Z.to_nat pos) s) -> no_nul (piece s a b).
Proof.
  intros s a b pos R L H X. apply H. unfold piece in X. rewrite firstn_skipn_comm in X.
  replace (Z.to_nat a + Z.to_nat (b - a))%nat with (Z.to_nat b) in X by lia.
  assert (X1 : In 0 (firstn (Z.to_nat b) s)). { rewrite <- (firstn_skipn (Z.to_nat a) (firstn (Z.to_nat b) s)). apply in_or_app. now right. }
  replace (Z.to_nat pos) with (Z.to_nat b + (Z.to_nat pos - Z.to_nat b))%nat by lia.
  rewrite <- (firstn_skipn (Z.to_nat b) s), firstn_app. apply in_or_app. left.
  rewrite firstn_firstn. replace (Nat.min _ _) with (Z.to_nat b) by lia. exact X1.
Qed.

Lemma inv_bump : forall s p, inv s p -> inv s (with_toks p (bump (p_super p) (p_toks p))).
Proof.
  intros s p [A Z0 B C D]. constructor; cbn [with_toks p_pos p_super p_toks].
  - exact A.
  - exact Z0.
  - unfold ok_super in *. now rewrite len_bump.
  - intros i Hi. rewrite length_bump in Hi. specialize (C i Hi). destruct (nth_bump (p_super p) (p_toks p) i) as [->| ->]; [exact C|now apply good_inc].
  - intros i j Hij. rewrite length_bump in Hij. specialize (D i j Hij).
    destruct (nth_bump (p_super p) (p_toks p) i) as [->| ->]; destruct (nth_bump (p_super p) (p_toks p) j) as [->| ->];
      rewrite ?related_inc1, ?related_inc2; exact D.
Qed.

(** Adding a token that starts at or after the current position. *)
Lemma inv_add : forall s pos sup l t pos' sup', inv s (P pos sup l) -> pos <= t_start t -> good s pos' t -> pos <= pos' <= len s -> no_nul (firstn (Z.to_nat pos') s) -> -1 <= sup' <= len l ->
  inv s (P pos' sup' (l ++ [t])).
Proof.
  intros s pos sup l t pos' sup' [A Z0 B C D] S G L Z1 Su. cbn [P p_pos p_super p_toks] in *.
  assert (N : forall i, (i < length (l ++ [t]))%nat -> (nth i (l ++ [t]) tok0 = nth i l tok0 /\ (i < length l)%nat) \/ (nth i (l ++ [t]) tok0 = t /\ i = length l)).
  { intros i Hi. rewrite app_length in Hi. cbn [length] in Hi. destruct (Nat.lt_ge_cases i (length l)).
    - left. rewrite app_nth1 by lia. auto.
    - right. assert (i = length l) by lia. subst. rewrite nth_middle. auto. }
  constructor; cbn [P p_pos p_super p_toks].
  - lia.
  - exact Z1.
  - unfold ok_super. rewrite len_app. change (len [t]) with 1. lia.
  - intros i Hi. destruct (N i Hi) as [[-> L1]|[-> _]]; [|exact G]. apply (good_later s pos); [lia|]. now apply C.
  - intros i j Hij. destruct (N i ltac:(lia)) as [[-> L1]|[_ ->]].
    + destruct (N j ltac:(lia)) as [[-> L2]|[-> _]]; [apply D; lia|].
      specialize (C i L1). pose proof (good_start _ _ _ C) as [G1 G2]. unfold related. destruct (is_open (nth i l tok0)) eqn:E.
      * specialize (G2 eq_refl). lia.
      * left. unfold good in C. rewrite E in C. lia.
    + rewrite app_length in Hij. cbn [length] in Hij. lia.
Qed.
Lemma inv_step : forall s pos sup l pos' sup', inv s (P pos sup l) -> pos <= pos' <= len s -> no_nul (firstn (Z.to_nat pos') s) -> -1 <= sup' < len l -> inv s (P pos' sup' l).
Proof.
  intros s pos sup l pos' sup' [A Z0 B C D] L Z1 S. cbn [P p_pos p_super p_toks] in *. constructor; cbn [P p_pos p_super p_toks].
  - lia.
  - exact Z1.
  - exact S.
  - intros i Hi. apply (good_later s pos); [lia|]. now apply C.
  - exact D.
Qed.

Lemma inv_close : forall s pos sup l ty p1, inv s (P pos sup l) -> pos < len s -> no_nul (firstn (Z.to_nat (pos + 1)) s) ->
  char_at s pos (if jtype_eqb ty JSMN_OBJECT then 125 else 93) -> ty = JSMN_OBJECT \/ ty = JSMN_ARRAY ->
  close_bracket ty (P pos sup l) = Some p1 -> inv s (at_pos p1 (pos + 1)) /\ length (p_toks p1) = length l.
Proof.
  intros s pos sup l ty p1 [A Z0 B C D] L Z1 Ch Ty H. cbn [P p_pos p_super p_toks] in *.
  unfold close_bracket in H. cbn [P p_toks p_pos] in H.
  destruct (last_index_spec is_open l (length l)) as [[E _]|(i & Li & E & Oi & Af)]; rewrite E in H.
  { discriminate H. }
  replace (Z.of_nat i =? -1) with false in H by lia. rewrite Nat2Z.id in H.
  set (t := nth i l tok0) in *. destruct (jtype_eqb (t_type t) ty) eqn:Et; [|discriminate]. cbn [negb] in H.
  set (t' := {| t_type := t_type t; t_start := t_start t; t_end := pos + 1; t_size := t_size t |}) in *.
  inversion H as [H1]; subst p1; clear H. cbn [at_pos p_toks p_super].
  assert (Tt : t_type t = ty) by (destruct (t_type t), ty; try reflexivity; discriminate Et).
  pose proof (C i Li) as G. fold t in G. unfold good in G. rewrite Oi in G. destruct G as [G1 G2].
  assert (Co : is_open t' = false) by (unfold is_open, t'; cbn; lia).
  split; [|apply length_set_nth].
  constructor; cbn [at_pos p_pos p_super p_toks].
  - lia.
  - exact Z1.
  - pose proof (last_index_range is_open (set_nth i l t') (S i)) as R. cbn [last_index] in R. unfold ok_super, len. rewrite length_set_nth. cbn [last_index]. lia.
  - intros j Hj. rewrite length_set_nth in Hj. destruct (Nat.eq_dec i j) as [<-|N].
    + rewrite nth_set_nth_eq by exact Li. unfold good. rewrite Co. cbn [t' t_end]. split; [|lia].
      unfold placed. cbn [t' t_start t_end t_type]. split; [lia|]. split; [lia|]. split; [apply (piece_nul s _ _ (pos + 1)); [lia|lia|exact Z1]|]. rewrite Tt in *.
      replace (pos + 1 - 1) with pos by lia.
      destruct Ty as [->| ->]; cbn [jtype_eqb] in Ch; destruct G2 as [[X Y]|[X Y]]; try discriminate X; repeat split; try exact Y; try apply Y; try apply Ch; lia.
    + rewrite nth_set_nth_neq by exact N. apply (good_later s pos); [lia|]. now apply C.
  - intros a b Hab. rewrite length_set_nth in Hab. specialize (D a b Hab).
    destruct (Nat.eq_dec i a) as [<-|N1].
    + rewrite nth_set_nth_eq by exact Li. rewrite nth_set_nth_neq by lia. fold t in D.
      pose proof (Af b ltac:(lia)) as Cb. pose proof (C b ltac:(lia)) as Gb. unfold good in Gb. rewrite Cb in Gb.
      unfold related. rewrite Co. right. cbn [t' t_start t_end]. unfold related in D. rewrite Oi in D.
      split; [|split; [exact D|split; [exact Cb|lia]]].
      unfold is_container. cbn [t' t_type]. rewrite Tt. destruct Ty as [->| ->]; reflexivity.
    + rewrite nth_set_nth_neq by exact N1. destruct (Nat.eq_dec i b) as [<-|N2].
      * rewrite nth_set_nth_eq by exact Li. fold t in D. unfold related in *. cbn [t' t_start t_end].
        destruct (is_open (nth a l tok0)); [exact D|]. destruct D as [D|(_ & _ & D & _)]; [left; exact D|]. congruence.
      * rewrite nth_set_nth_neq by exact N2. exact D.
Qed.

Lemma body_nul : forall a, body a -> no_nul a.
Proof.
  intros a B. induction B; intro Y.
  - exact Y.
  - destruct Y; [congruence|auto].
  - destruct Y as [Y|[Y|Y]]; [lia| |auto]. subst. cbn in H. lia.
  - assert (Z0 : forall x, isxdigit x = true -> x <> 0) by (intros x X ->; discriminate X).
    apply IHB. destruct Y as [Y|[Y|[Y|[Y|[Y|[Y|Y]]]]]]; try lia; try (exfalso; subst; now eapply Z0; eauto).
Qed.

Lemma inv_comma : forall s p, inv s p -> exists i, comma p = Ok (with_super p i) /\ -1 <= i < len (p_toks p).
Proof.
  intros s p [A Z0 B C D]. unfold comma, ok_super in *. 
  assert (Hid : p = with_super p (p_super p)) by (destruct p; reflexivity).
  destruct (p_super p =? -1) eqn:E; [exists (p_super p); split; [now rewrite <- Hid|lia]|].
  unfold tok_at. replace ((0 <=? p_super p) && (p_super p <? len (p_toks p))) with true by lia. cbn [bind].
  destruct (is_container _); [exists (p_super p); split; [now rewrite <- Hid|lia]|].
  set (i := last_index _ _ _). destruct (i =? -1) eqn:Ei; [exists (p_super p); split; [now rewrite <- Hid|lia]|].
  exists i. split; [reflexivity|]. unfold i in *. destruct (last_index_range (fun t => is_container t && is_open t) (p_toks p) (length (p_toks p))) as [R|R].
  - unfold len. lia.
  - rewrite R in Ei. discriminate Ei.
Qed.

Lemma piece_mid : forall a b c x y, len a = x -> y = x + len b -> piece (a ++ b ++ c) x y = b.
Proof.
  intros a b c x y <- ->. unfold piece. replace (Z.to_nat (len a)) with (length a) by (unfold len; lia).
  rewrite skipn_app, skipn_all, Nat.sub_diag. cbn [skipn app].
  replace (Z.to_nat (len a + len b - len a)) with (length b) by (unfold len; lia). rewrite firstn_app, firstn_all, Nat.sub_diag. cbn [firstn]. apply app_nil_r.
Qed.
Lemma char_at_mid : forall a c b x, len a = x -> char_at (a ++ c :: b) x c.
Proof.
  intros a c b x <-. unfold char_at. split; [rewrite len_app, len_cons; pose proof (len_nonneg _ b); pose proof (len_nonneg _ a); lia|].
  replace (Z.to_nat (len a)) with (length a) by (unfold len; lia). apply nth_middle.
Qed.

Lemma is_open_token : forall ty a b s, is_open (token ty a b s) = negb (a =? -1) && (b =? -1).
Proof. reflexivity. Qed.

Definition outcome (s : bytes) (k : Z) (out : res (Z * parser)) : Prop :=
  exists r q, out = Ok (r, q) /\ inv s q /\ len (p_toks q) <= k
    /\ (In r [JSMN_ERROR_NOMEM; JSMN_ERROR_INVAL; JSMN_ERROR_PART]
        \/ (r = len (p_toks q) /\ forall i, (i < length (p_toks q))%nat -> is_open (nth i (p_toks q) tok0) = false)).

Lemma run_outcome : forall m rest, (length rest <= m)%nat -> forall s pre k pos sup l, s = pre ++ rest -> len pre = pos -> inv s (P pos sup l) -> len l <= k ->
  outcome s k (run rest (Some k) (P pos sup l) (len l)).
Proof.
  induction m as [m IH] using lt_wf_ind. intros rest Lm s pre k pos sup l Es Ep I K.
  assert (Err : forall r, In r [JSMN_ERROR_NOMEM; JSMN_ERROR_INVAL; JSMN_ERROR_PART] -> outcome s k (Ok (r, P pos sup l))).
  { intros r Hr. exists r, (P pos sup l). auto. }
  assert (End : outcome s k (run [] (Some k) (P pos sup l) (len l))).
  { rewrite run_end. cbn [P p_toks]. destruct (last_index_spec is_open l (length l)) as [[E F]|(i & Li & E & _)]; rewrite E.
    - change (-1 =? -1) with true. cbv iota. exists (len l), (P pos sup l). split; [reflexivity|]. split; [exact I|]. split; [exact K|]. right. split; [reflexivity|exact F].
    - replace (Z.of_nat i =? -1) with false by lia. apply Err. cbn. auto. }
  destruct rest as [|c t]; [exact End|].
  cbn [length] in Lm. destruct m as [|m]; [lia|].
  assert (Ls : len s = pos + 1 + len t) by (subst s; rewrite len_app, len_cons; lia).
  pose proof (len_nonneg _ t) as Lt. pose proof (inv_pos _ _ I) as Ip. pose proof (inv_super _ _ I) as Is. cbn [P p_pos p_super p_toks] in Ip, Is.
  assert (Pre : firstn (Z.to_nat pos) s = pre) by (subst s pos; replace (Z.to_nat (len pre)) with (length pre + 0)%nat by (unfold len; lia); rewrite firstn_app_2, firstn_O, app_nil_r; reflexivity).
  assert (Nn : forall mid u, t = mid ++ u -> c <> 0 -> no_nul mid -> no_nul (firstn (Z.to_nat (pos + 1 + len mid)) s)).
  { intros mid u -> C0 M. pose proof (inv_nul _ _ I) as X. cbn [P p_pos] in X. rewrite Pre in X.
    replace (firstn _ s) with (pre ++ c :: mid). 2: { subst s pos. replace (pre ++ c :: mid ++ u) with ((pre ++ c :: mid) ++ u) by (now rewrite <- app_assoc).
      replace (Z.to_nat _) with (length (pre ++ c :: mid) + 0)%nat by (rewrite app_length; cbn [length]; unfold len; lia). rewrite firstn_app_2, firstn_O, app_nil_r. reflexivity. }
    intro Y. apply in_app_or in Y as [Y|[Y|Y]]; [exact (X Y)|lia|exact (M Y)]. }
  assert (N1 : c <> 0 -> no_nul (firstn (Z.to_nat (pos + 1)) s)).
  { intro C0. specialize (Nn [] t eq_refl C0 (fun x => x)). change (len (@nil Z)) with 0 in Nn. now rewrite Z.add_0_r in Nn. }
  assert (Ib : inv s (P pos sup (bump sup l))) by exact (inv_bump s _ I).
  assert (Step : forall sup', c <> 0 -> -1 <= sup' < len l -> outcome s k (run t (Some k) (P (pos + 1) sup' l) (len l))).
  { intros sup' C0 S. apply (IH m ltac:(lia) t ltac:(lia) s (pre ++ [c])); [now rewrite <- app_assoc|rewrite len_app; change (len [c]) with 1; lia| |exact K].
    apply (inv_step s pos sup); [exact I|lia|now apply N1|exact S]. }
  (* a new token *)
  assert (Add : forall mid u tk sup', t = mid ++ u -> c <> 0 -> no_nul mid -> pos <= t_start tk -> good s (pos + 1 + len mid) tk -> -1 <= sup' <= len l -> (k <=? len l) = false ->
    outcome s k (run u (Some k) (P (pos + 1 + len mid) sup' (bump sup l ++ [tk])) (len l + 1))).
  { intros mid u tk sup' Et C0 M S G Su Kl. replace (len l + 1) with (len (bump sup l ++ [tk])) by (rewrite len_app, len_bump; reflexivity).
    pose proof (len_nonneg _ mid). assert (Lu : (length mid + length u <= m)%nat) by (rewrite Et, app_length in Lm; lia).
    apply (IH m ltac:(lia) u ltac:(lia) s (pre ++ c :: mid)).
    - rewrite <- app_assoc. cbn [Datatypes.app]. rewrite <- Et. exact Es.
    - rewrite len_app, len_cons. lia.
    - apply (inv_add s pos sup); [exact Ib|exact S|exact G| |now apply (Nn mid u)|rewrite len_bump; exact Su].
      rewrite Et, len_app in Ls. pose proof (len_nonneg _ u). lia.
    - rewrite len_app, len_bump. change (len [tk]) with 1. lia. }
  destruct (c =? 0) eqn:E0; [replace c with 0 by lia; rewrite run_nul; exact End|].
  destruct ((c =? 123) || (c =? 91)) eqn:E1.
  { assert (Ce : c = 123 \/ c = 91) by lia. rewrite (open_exact c) by auto. destruct (k <=? len l) eqn:Kl; [apply Err; cbn; auto|].
    replace (pos + 1) with (pos + 1 + len (@nil Z)) by (cbn; lia). pose proof (len_nonneg _ l). apply Add; [reflexivity|lia|intros []|cbn; lia| |lia|reflexivity].
    unfold good. rewrite is_open_token; match goal with |- context [negb ?x && ?y] => replace (negb x && y) with true by lia end. unfold opened. cbn [token t_start t_type].
    split; [cbn; lia|]. destruct Ce as [->| ->]; [left|right]; (split; [reflexivity|]); subst s; now apply char_at_mid. }
  destruct ((c =? 125) || (c =? 93)) eqn:E2.
  { assert (Ce : c = 125 \/ c = 93) by lia. rewrite run_close by exact Ce. destruct (close_bracket _ _) as [p1|] eqn:Cl; [|apply Err; cbn; auto].
    apply inv_close with (s := s) in Cl; [|exact I|lia|apply N1; lia|subst s; destruct Ce as [->| ->]; now apply char_at_mid|destruct Ce as [->| ->]; auto].
    destruct Cl as [I1 L1]. cbn [P p_pos]. destruct p1 as [pp ps pl]. cbn [at_pos p_super p_toks] in *.
    replace (len l) with (len pl) by (unfold len; now rewrite L1).
    apply (IH m ltac:(lia) t ltac:(lia) s (pre ++ [c])); [now rewrite <- app_assoc|rewrite len_app; change (len [c]) with 1; lia|exact I1|].
    unfold len in *. lia. }
  destruct (c =? 34) eqn:E3.
  { replace c with 34 in * by lia. destruct (str_scan SPlain t (pos + 1)) as [e u| |] eqn:Sc.
    - pose proof (str_scan_body _ _ _ _ _ Sc) as (a & Ea & B). cbn [pending] in B. subst t.
      change (34 :: a ++ 34 :: u) with ([34] ++ a ++ [34] ++ u). rewrite (string_exact a u k pos sup l (len l) B Is).
      destruct (k <=? len l) eqn:Kl; [apply Err; cbn; auto|]. pose proof (len_nonneg _ a).
      replace (pos + (len a + 2)) with (pos + 1 + len (a ++ [34])) by (rewrite len_app; change (len [34]) with 1; lia).
      assert (Mn : no_nul (a ++ [34])) by (intro Y; apply in_app_or in Y as [Y|[Y|[]]]; [exact (body_nul a B Y)|lia]).
      apply Add; [now rewrite <- app_assoc|lia|exact Mn|cbn; lia| |unfold ok_super in Is; lia|reflexivity].
      unfold good. rewrite is_open_token; match goal with |- context [negb ?x && ?y] => replace (negb x && y) with false by lia end.
      rewrite len_app, len_cons in Ls. pose proof (len_nonneg _ u).
      unfold placed. cbn [token t_start t_end t_type]. split; [|rewrite len_app; change (len [34]) with 1; lia].
      split; [lia|]. split; [lia|].
      assert (Pc : piece s (pos + 1) (pos + 1 + len a) = a).
      { subst s. replace (pre ++ 34 :: a ++ 34 :: u) with ((pre ++ [34]) ++ a ++ 34 :: u) by (now rewrite <- app_assoc). apply piece_mid; [rewrite len_app; change (len [34]) with 1; lia|lia]. }
      rewrite Pc. split; [exact (body_nul a B)|].
      split; [replace (pos + 1 - 1) with pos by lia; subst s; now apply char_at_mid|]. split.
      + subst s. replace (pre ++ 34 :: a ++ 34 :: u) with ((pre ++ 34 :: a) ++ 34 :: u) by (now rewrite <- app_assoc). apply char_at_mid. rewrite len_app, len_cons. lia.
      + exact B.
    - rewrite run_string. cbn [P p_pos]. rewrite Sc. apply Err. cbn. auto.
    - rewrite run_string. cbn [P p_pos]. rewrite Sc. apply Err. cbn. auto. }
  destruct (memb c [9; 13; 10; 32]) eqn:E4.
  { rewrite run_space. 2: { unfold memb in E4. cbn [existsb] in E4. cbn [In]. lia. } apply Step; [lia|exact Is]. }
  destruct (c =? 58) eqn:E5.
  { replace c with 58 by lia. rewrite run_colon. cbn [P p_toks p_pos with_super at_pos]. apply Step; [lia|]. pose proof (len_nonneg _ l).
 cbn [with_super p_super]. lia. }
  destruct (c =? 44) eqn:E6.
  { replace c with 44 by lia. rewrite run_comma. destruct (inv_comma s _ I) as (i & -> & Hi). cbn [bind]. apply Step; [lia|exact Hi]. }
  assert (Bc : bare c = true) by (unfold bare, memb in *; cbn [existsb] in *; lia).
  rewrite run_prim by exact Bc. cbn [P p_pos]. change {| p_pos := pos; p_super := sup; p_toks := l |} with (P pos sup l).
  destruct (prim_scan (c :: t) pos) as [[e u]|] eqn:Sc; [|apply Err; cbn; auto].
  apply prim_scan_first in Sc as [Rc Sc]; try assumption; try lia. apply prim_scan_shorter in Sc as (_ & Ee & a & Ea & F).
  subst t. rewrite len_app in Ls, Ee. pose proof (len_nonneg _ a). pose proof (len_nonneg _ u).
  rewrite (add_token k pos sup l _ (fun p2 => run u (Some k) (at_pos p2 e) (len l + 1)) Is).
  destruct (k <=? len l) eqn:Kl; [apply Err; cbn; auto|]. cbn [at_pos P p_super p_toks].
  replace e with (pos + 1 + len a) by lia.
  match goal with |- context [at_pos (P pos sup ?x) ?y] => change (at_pos (P pos sup x) y) with (P y sup x) end.
  apply Add; [reflexivity|lia|intro Y; rewrite Forall_forall in F; specialize (F _ Y); cbn in F; lia|cbn; lia| |unfold ok_super in Is; lia|reflexivity].
  unfold good. rewrite is_open_token; match goal with |- context [negb ?x && ?y] => replace (negb x && y) with false by lia end.
  assert (Pc : piece s pos (pos + 1 + len a) = c :: a).
  { subst s. change (pre ++ c :: a ++ u) with (pre ++ (c :: a) ++ u). apply piece_mid; [exact Ep|rewrite len_cons; lia]. }
  assert (Fc : Forall (fun c => 32 < c < 127) (c :: a)) by (constructor; assumption).
  unfold placed. cbn [token t_start t_end t_type]. rewrite Pc. split; [|lia]. split; [lia|]. split; [lia|].
  split; [intro Y; rewrite Forall_forall in Fc; specialize (Fc _ Y); cbn in Fc; lia|]. split; [lia|exact Fc].
Qed.

Theorem parse_outcome : forall js n k, 0 <= n <= len js -> 0 <= k ->
  exists r q, jsmn_parse jsmn_init js n (Some k) = Ok (r, q) /\ len (p_toks q) <= k /\ 0 <= p_pos q <= n
    /\ (In r [JSMN_ERROR_NOMEM; JSMN_ERROR_INVAL; JSMN_ERROR_PART]
        \/ (r = len (p_toks q) /\ Forall (placed (firstn (Z.to_nat n) js)) (p_toks q) /\ ForallOrdPairs before_or_around (p_toks q))).
Proof.
  intros js n k N K. unfold jsmn_parse. cbn [jsmn_init p_pos p_toks]. replace ((0 <=? 0) && (n <=? len js)) with true by lia.
  set (s := firstn (Z.to_nat n) js). change (skipn (Z.to_nat 0) s) with s.
  assert (Ln : len s = n) by (unfold s; rewrite len_firstn; lia).
  assert (I0 : inv s (P 0 (-1) [])). { constructor; cbn; try lia; [intros []|]. unfold ok_super. cbn. lia. }
  destruct (run_outcome (length s) s ltac:(lia) s [] k 0 (-1) [] eq_refl eq_refl I0 K) as (r & q & H & I & L & O).
  exists r, q. split; [exact H|]. split; [exact L|]. split; [rewrite <- Ln; apply (inv_pos _ _ I)|].
  destruct O as [O|[O C]]; [left; exact O|right]. split; [exact O|].
  destruct q as [pp ps pl]. destruct I as [A Z0 B G R]. cbn [p_toks p_pos p_super] in *. clear - G R C. 
  assert (G' : forall i, (i < length pl)%nat -> placed s (nth i pl tok0)).
  { intros i Hi. specialize (G i Hi). unfold good in G. rewrite (C i Hi) in G. apply G. }
  split.
  - apply Forall_forall. intros x Hx. apply (In_nth _ _ tok0) in Hx as (i & Hi & <-). auto.
  - clear G G'. induction pl as [|t l IH]; [constructor|]. constructor.
    + apply Forall_forall. intros x Hx. apply (In_nth _ _ tok0) in Hx as (i & Hi & <-).
      specialize (R 0%nat (S i) ltac:(cbn; lia)). unfold related in R. rewrite (C 0%nat ltac:(cbn; lia)) in R. cbn [nth] in R.
      unfold before_or_around. destruct R as [R|(R1 & R2 & _ & R3)]; auto.
    + apply IH.
      * intros i j H. apply (R (S i) (S j)). cbn. lia.
      * intros i H. apply (C (S i)). cbn. lia.
Qed.

(** Without a token array the return value is the number of tokens. *)
Lemma run_count : forall m rest, (length rest <= m)%nat -> forall k p n r q p', run rest (Some k) p n = Ok (r, q) -> 0 <= r -> p_pos p' = p_pos p ->
  exists q', run rest None p' n = Ok (r, q').
Proof.
  induction m as [m IH] using lt_wf_ind. intros rest Lm k p n r q p' H R E.
  assert (NE : forall x : parser, Ok (JSMN_ERROR_NOMEM, x) = Ok (r, q) -> False) by (intros x X; inversion X; subst; unfold JSMN_ERROR_NOMEM in R; lia).
  assert (NI : forall x : parser, Ok (JSMN_ERROR_INVAL, x) = Ok (r, q) -> False) by (intros x X; inversion X; subst; unfold JSMN_ERROR_INVAL in R; lia).
  assert (NP : forall x : parser, Ok (JSMN_ERROR_PART, x) = Ok (r, q) -> False) by (intros x X; inversion X; subst; unfold JSMN_ERROR_PART in R; lia).
  assert (End : run [] (Some k) p n = Ok (r, q) -> exists q', run [] None p' n = Ok (r, q')).
  { rewrite run_end. destruct (_ =? -1); intro X; [inversion X; subst; exists p'; reflexivity|destruct (NP _ X)]. }
  destruct rest as [|c t]; [apply End; exact H|]. cbn [length] in Lm. destruct m as [|m]; [lia|].
  assert (Next : forall p1 n1, run t (Some k) (at_pos p1 (p_pos p + 1)) n1 = Ok (r, q) -> exists q', run t None (at_pos p' (p_pos p' + 1)) n1 = Ok (r, q')).
  { intros p1 n1 X. apply (IH m ltac:(lia) t ltac:(lia) _ _ _ _ _ _ X R). cbn. lia. }
  destruct (c =? 0) eqn:E0. { replace c with 0 in * by lia. rewrite run_nul in H. apply End. exact H. }
  destruct ((c =? 123) || (c =? 91)) eqn:E1.
  { assert (Ce : c = 123 \/ c = 91) by lia. rewrite run_open in H by exact Ce. destruct (jsmn_new_token _ _ _); [|destruct (NE _ H)].
    destruct (bump_super _); [|discriminate]. cbn [bind] in H. apply Next in H. destruct Ce as [->| ->]; exact H. }
  destruct ((c =? 125) || (c =? 93)) eqn:E2.
  { assert (Ce : c = 125 \/ c = 93) by lia. rewrite run_close in H by exact Ce. destruct (close_bracket _ _); [|destruct (NI _ H)].
    apply Next in H. destruct Ce as [->| ->]; exact H. }
  destruct (c =? 34) eqn:E3.
  { replace c with 34 in * by lia. rewrite run_string in H. 
    unfold run. cbn [length]. assert (F : (length t < S (length t))%nat) by lia. remember (S (length t)) as f eqn:Ef. clear Ef. cbn [jsmn_loop].
    cbn -[jsmn_loop str_scan jsmn_new_token bump_super].
    rewrite E. destruct (str_scan SPlain t (p_pos p + 1)) as [e u| |] eqn:Sc; [|destruct (NI _ H)|destruct (NP _ H)].
    pose proof (str_scan_shorter _ _ _ _ _ Sc) as [Su _].
    destruct (jsmn_new_token _ _ _); [|destruct (NE _ H)]. destruct (bump_super _); [|discriminate]. cbn [bind] in H. rewrite run_any by lia.
    apply (IH m ltac:(lia) u ltac:(lia) _ _ _ _ _ _ H R). reflexivity. }
  destruct (memb c [9; 13; 10; 32]) eqn:E4.
  { assert (In c [9; 10; 13; 32]) by (unfold memb in E4; cbn [existsb] in E4; cbn [In]; lia). rewrite run_space in H |- * by assumption. apply (Next p). exact H. }
  destruct (c =? 58) eqn:E5.
  { replace c with 58 in * by lia. rewrite run_colon in H |- *. apply (IH m ltac:(lia) t ltac:(lia) _ _ _ _ _ _ H R). cbn. lia. }
  destruct (c =? 44) eqn:E6.
  { replace c with 44 in * by lia. rewrite run_comma in H. destruct (comma p); [|discriminate]. cbn [bind] in H. apply Next in H. exact H. }
  assert (Bc : bare c = true) by (unfold bare, memb in *; cbn [existsb] in *; lia).
  rewrite run_prim in H by exact Bc.
  unfold run. cbn [length]. assert (F : (length t < S (length t))%nat) by lia. remember (S (length t)) as f eqn:Ef. clear Ef. cbn [jsmn_loop].
  rewrite E0, E1, E2, E3, E4, E5, E6. rewrite E.
  destruct (prim_scan (c :: t) (p_pos p)) as [[e u]|] eqn:Sc; [|destruct (NI _ H)].
  apply prim_scan_first in Sc as [_ Sc]; try assumption. pose proof (prim_scan_shorter _ _ _ _ Sc) as [Su _].
  destruct (jsmn_new_token _ _ _); [|destruct (NE _ H)]. destruct (bump_super _); [|discriminate]. cbn [bind] in H. rewrite run_any by lia.
  apply (IH m ltac:(lia) u ltac:(lia) _ _ _ _ _ _ H R). reflexivity.
Qed.
Theorem parse_count : forall js n k r q, jsmn_parse jsmn_init js n (Some k) = Ok (r, q) -> 0 <= r ->
  exists q', jsmn_parse jsmn_init js n None = Ok (r, q').
Proof.
  intros js n k r q H R. unfold jsmn_parse in *. destruct (_ && _); [|discriminate].
  apply (run_count _ _ (le_n _) _ _ _ _ _ jsmn_init H R eq_refl).
Qed.
