(** The bounded string functions. *)
From Coq Require Import ZArith List Bool Lia ZifyBool ZifyNat.
From Verif Require Import Base Spec.SafeC Model.SafeC.
Import ListNotations.
Open Scope Z_scope.

Lemma rd_mid : forall a c b, rd (a ++ c :: b) (len a) = Ok c.
Proof.
  intros. unfold rd, len. replace (0 <=? Z.of_nat (length a)) with true by lia. rewrite Nat2Z.id, nth_error_app2 by lia. now rewrite Nat.sub_diag.
Qed.
Lemma set_nth_mid : forall (a : bytes) c b v, set_nth (length a) (a ++ c :: b) v = a ++ v :: b.
Proof. induction a as [|x a IH]; intros; [reflexivity|]. cbn. now rewrite IH. Qed.
Lemma wr_mid : forall a c b v, wr (a ++ c :: b) (len a) v = Ok (a ++ v :: b).
Proof.
  intros. unfold wr, len. replace (0 <=? Z.of_nat (length a)) with true by lia. rewrite Nat2Z.id, nth_error_app2 by lia. rewrite Nat.sub_diag. cbn. now rewrite set_nth_mid.
Qed.

Lemma offers_cons : forall b n s, offers b n s -> n <> 0 ->
  (exists b', b = 0 :: b' /\ s = []) \/ (exists c b' s', b = c :: b' /\ c <> 0 /\ s = c :: s' /\ offers b' (n - 1) s').
Proof.
  intros b n s [N H] Hn. destruct s as [|c s'].
  - destruct H as [[L _]|[_ [r ->]]]; [cbn in L; lia|]. left. exists r. split; reflexivity.
  - right. assert (c <> 0) by (intro; subst; apply N; now left). assert (N' : ~ In 0 s') by (intro; apply N; now right). rewrite len_cons in H.
    destruct H as [[L [r ->]]|[L [r ->]]]; exists c; eexists; exists s'; (split; [reflexivity|]); (split; [assumption|]); (split; [reflexivity|]); (split; [assumption|]); [left|right]; (split; [lia|]); eauto.
Qed.
Lemma offers_0 : forall b s, offers b 0 s -> s = [].
Proof. intros b s [_ [[L _]|[L _]]]; [now apply len_0_nil|]. pose proof (len_nonneg _ s). lia. Qed.
Lemma text_upto_spec : forall n b s, text_upto n b = Ok s <-> offers b (Z.of_nat n) s.
Proof.
  induction n as [|n IH]; intros b s.
  - cbn. split.
    + intro H. injection H as <-. split; [intros []|]. left. split; [reflexivity|]. now exists b.
    + intro H. now rewrite (offers_0 _ _ H).
  - cbn [text_upto]. split.
    + destruct b as [|c b]; [discriminate|]. destruct (c =? 0) eqn:C.
      * intro H. injection H as <-. apply Z.eqb_eq in C. subst. split; [intros []|]. right. split; [unfold len; cbn [length]; lia|]. now exists b.
      * intro H. destruct (text_upto n b) as [t|] eqn:T; [|discriminate]. cbn in H. injection H as <-. apply IH in T as [N T].
        split; [intros [->|I]; [discriminate C|auto]|]. rewrite len_cons. destruct T as [[L [r ->]]|[L [r ->]]]; [left|right]; (split; [lia|]); now exists r.
    + intro H. apply offers_cons in H as [(b' & -> & ->)|(c & b' & s' & -> & C & -> & O)]; [| |lia]; [reflexivity|].
      replace (c =? 0) with false by lia. replace (Z.of_nat (S n) - 1) with (Z.of_nat n) in O by lia. apply IH in O. now rewrite O.
Qed.
Lemma holds_offers : forall b s n, holds b s -> 0 <= n -> offers b n (firstn (Z.to_nat n) s).
Proof.
  intros b s n [N [r ->]] Hn. split; [intro I; apply N; rewrite <- (firstn_skipn (Z.to_nat n) s); apply in_or_app; now left|].
  destruct (Z_le_gt_dec n (len s)).
  - left. split; [rewrite len_firstn; lia|]. exists (skipn (Z.to_nat n) s ++ 0 :: r). rewrite app_assoc, firstn_skipn. reflexivity.
  - right. rewrite firstn_all2 by (unfold len in *; lia). split; [lia|]. now exists r.
Qed.

Lemma copy_fits : forall n a rest pre b slen s, len pre = len a -> offers b slen s -> (length s < n)%nat -> (n <= length rest)%nat -> 0 <= slen ->
  strncpy_loop n (a ++ rest) (pre ++ b) (len a) slen = Ok (EOK, Some (a ++ s ++ 0 :: skipn (S (length s)) rest)).
Proof.
  induction n as [|n IH]; intros a rest pre b slen s E O L R P; [lia|]. destruct rest as [|x rest]; [cbn in R; lia|]. cbn [strncpy_loop].
  destruct (slen =? 0) eqn:Z.
  - assert (slen = 0) by lia. subst. rewrite (offers_0 _ _ O). rewrite wr_mid. reflexivity.
  - apply offers_cons in O as [(b' & -> & ->)|(c & b' & s' & -> & C & -> & O)]; [| |lia].
    + rewrite <- E, rd_mid. cbn [bind]. rewrite E, wr_mid. reflexivity.
    + rewrite <- E, rd_mid. cbn [bind]. rewrite E, wr_mid. cbn [bind]. replace (c =? 0) with false by lia.
      replace (len a + 1) with (len (a ++ [c])) by (rewrite len_app; reflexivity).
      replace (a ++ c :: rest) with ((a ++ [c]) ++ rest) by (rewrite <- app_assoc; reflexivity).
      replace (pre ++ c :: b') with ((pre ++ [c]) ++ b') by (rewrite <- app_assoc; reflexivity).
      cbn [length] in L, R. rewrite (IH (a ++ [c]) rest (pre ++ [c]) b' (slen - 1) s').
      * rewrite <- app_assoc. reflexivity.
      * rewrite !len_app. lia.
      * exact O.
      * lia.
      * lia.
      * lia.
Qed.
Lemma wr0 : forall d : bytes, d <> [] -> wr d 0 0 = Ok (0 :: tl d).
Proof. intros [|x d] H; [congruence|reflexivity]. Qed.
Lemma copy_full : forall n a rest pre s b slen, len pre = len a -> ~ In 0 s -> length s = n -> (n <= length rest)%nat -> Z.of_nat n <= slen -> a ++ rest <> [] ->
  strncpy_loop n (a ++ rest) (pre ++ s ++ b) (len a) slen = Ok (ESNOSPC, Some (0 :: tl (a ++ s ++ skipn n rest))).
Proof.
  induction n as [|n IH]; intros a rest pre s b slen E N L R P Ne.
  - destruct s; [|discriminate]. cbn [strncpy_loop]. rewrite wr0 by exact Ne. reflexivity.
  - destruct s as [|c s]; [discriminate|]. destruct rest as [|x rest]; [cbn in R; lia|]. cbn [strncpy_loop]. replace (slen =? 0) with false by lia.
    assert (c <> 0) by (intro; subst; apply N; now left). cbn [Datatypes.app]. rewrite <- E, rd_mid. cbn [bind]. rewrite E, wr_mid. cbn [bind]. replace (c =? 0) with false by lia.
    replace (len a + 1) with (len (a ++ [c])) by (rewrite len_app; reflexivity).
    replace (a ++ c :: rest) with ((a ++ [c]) ++ rest) by (rewrite <- app_assoc; reflexivity).
    replace (pre ++ c :: s ++ b) with ((pre ++ [c]) ++ s ++ b) by (rewrite <- app_assoc; reflexivity).
    cbn [length] in L, R. rewrite (IH (a ++ [c]) rest (pre ++ [c]) s b (slen - 1)).
    + rewrite <- app_assoc. reflexivity.
    + rewrite !len_app. lia.
    + intro I. apply N. now right.
    + lia.
    + lia.
    + lia.
    + now destruct a.
Qed.

Lemma within_app : forall n (x y z : bytes), length x = length y -> (length x <= Z.to_nat n)%nat -> within n (x ++ z) (y ++ z).
Proof.
  intros n x y z E L. split; [rewrite !len_app; unfold len; lia|]. intros i I. rewrite !nth_error_app2 by lia. now rewrite E.
Qed.
Lemma within_skip : forall n (d t : bytes), 0 <= n -> len t = n -> n <= len d -> within n d (t ++ skipn (Z.to_nat n) d).
Proof.
  intros n d t P L D. rewrite <- (firstn_skipn (Z.to_nat n) d) at 1. apply within_app; [rewrite firstn_length; unfold len in *; lia|rewrite firstn_length; lia].
Qed.

(** Counting *)
Lemma among_spec : forall c n b s, offers b (Z.of_nat n) s -> (exists r, b = s ++ r /\ r <> []) -> (Z.of_nat n = len s \/ True) ->
  exists m, among c n b = Ok m /\ (m = true <-> In c s).
Proof.
  intros c n. induction n as [|n IH]; intros b s O (r & E & Nr) _.
  - rewrite (offers_0 _ _ O) in *. cbn [Datatypes.app] in E. subst b. destruct r as [|x r]; [congruence|]. exists false. split; [cbn; destruct (x =? 0); reflexivity|]. split; [discriminate|intros []].
  - pose proof O as [N0 _]. apply offers_cons in O as [(b' & -> & ->)|(x & b' & s' & -> & X & -> & O)]; [| |lia].
    + exists false. split; [reflexivity|]. split; [discriminate|intros []].
    + cbn [Datatypes.app] in E. injection E as E. replace (Z.of_nat (S n) - 1) with (Z.of_nat n) in O by lia.
      cbn [among]. replace (x =? 0) with false by lia. destruct (c =? x) eqn:C.
      * exists true. split; [reflexivity|]. split; [intros _; left; lia|reflexivity].
      * destruct (IH b' s' O) as (m & -> & M); [now exists r|now right|]. exists m. split; [reflexivity|]. rewrite M. split; [intro; now right|intros [?|?]; [lia|assumption]].
Qed.
Lemma span_loop_spec : forall stop b2 set slen, (forall c, exists m, among c slen b2 = Ok m /\ (m = true <-> In c set)) ->
  forall n s r, ~ In 0 s -> r <> [] -> (length s <= n)%nat -> (length s = n \/ exists r', r = 0 :: r') ->
  exists k, span_loop stop n (s ++ r) b2 slen = Ok k /\ span (fun c => if stop then ~ In c set else In c set) s k.
Proof.
  intros stop b2 set slen A n. induction n as [|n IH]; intros s r N Nr L T.
  - destruct s; [|cbn in L; lia]. destruct r as [|x r]; [congruence|]. exists 0. split; [cbn; destruct (x =? 0); reflexivity|reflexivity].
  - destruct s as [|c s].
    + destruct T as [T|(r' & ->)]; [discriminate|]. exists 0. split; reflexivity.
    + assert (c <> 0) by (intro; subst; apply N; now left). cbn [Datatypes.app span_loop]. replace (c =? 0) with false by lia.
      destruct (A c) as (m & -> & M). cbn [bind].
      destruct (Bool.eqb m stop) eqn:B.
      * exists 0. split; [reflexivity|]. left. split; [|reflexivity]. apply eqb_prop in B. subst. destruct stop; [intro Q; apply Q; now apply M|]. intro Q. apply M in Q. discriminate.
      * destruct (IH s r) as (k & -> & K); [intro; apply N; now right|exact Nr|cbn in L; lia|destruct T as [T|T]; [left; cbn in T; lia|now right]|].
        exists (k + 1). split; [reflexivity|]. right. split; [destruct stop, m; try discriminate B; [intro Q; apply M in Q; discriminate|now apply M]|]. replace (k + 1 - 1) with k by lia. split; [exact K|].
        assert (0 <= k); [|lia]. clear - K. revert k K. induction s as [|y s IH]; intros k K; cbn in K; [lia|]. destruct K as [[_ ->]|(_ & _ & ?)]; lia.
Qed.

(** Comparing *)
Lemma toupper_0 : forall c, 0 <= c -> toupper c = 0 <-> c = 0.
Proof. intros c H. unfold toupper, islower. destruct ((97 <=? c) && (c <=? 122)) eqn:E; lia. Qed.
Lemma casecmp_spec : forall n a b ra rb, ~ In 0 a -> ~ In 0 b -> Forall (fun c => 0 <= c) a -> Forall (fun c => 0 <= c) b ->
  exists i, casecmp_loop n (a ++ 0 :: ra) (b ++ 0 :: rb) = Ok i /\ (i = 0 <-> map toupper (firstn (S n) a) = map toupper (firstn (S n) b)).
Proof.
  induction n as [|n IH]; intros a b ra rb Na Nb Pa Pb.
  - destruct a as [|x a], b as [|y b].
    + exists 0. split; [reflexivity|]. split; reflexivity.
    + assert (y <> 0) by (intro; subst; apply Nb; now left). inversion Pb; subst. exists (0 - toupper y). split; [reflexivity|]. cbn. pose proof (toupper_0 y). split; [lia|discriminate].
    + assert (x <> 0) by (intro; subst; apply Na; now left). inversion Pa; subst. exists (toupper x - 0). split; [cbn; destruct (x =? 0); reflexivity|]. cbn. pose proof (toupper_0 x). split; [lia|discriminate].
    + exists (toupper x - toupper y). split; [cbn; destruct ((x =? 0) || (y =? 0)); reflexivity|]. cbn. split; [intro; f_equal; lia|intro E; injection E; lia].
  - destruct a as [|x a], b as [|y b].
    + exists 0. split; [reflexivity|]. split; reflexivity.
    + assert (y <> 0) by (intro; subst; apply Nb; now left). inversion Pb; subst. exists (0 - toupper y). split; [reflexivity|]. cbn. pose proof (toupper_0 y). split; [lia|discriminate].
    + assert (x <> 0) by (intro; subst; apply Na; now left). inversion Pa; subst. exists (toupper x - 0). split; [cbn; destruct (x =? 0); reflexivity|]. cbn. pose proof (toupper_0 x). split; [lia|discriminate].
    + assert (x <> 0) by (intro; subst; apply Na; now left). assert (y <> 0) by (intro; subst; apply Nb; now left). inversion Pa; subst. inversion Pb; subst.
      cbn [Datatypes.app casecmp_loop]. replace ((x =? 0) || (y =? 0)) with false by lia. destruct (toupper x =? toupper y) eqn:E.
      * destruct (IH a b ra rb) as (i & -> & I); [intro; apply Na; now right|intro; apply Nb; now right|assumption|assumption|]. exists i. split; [reflexivity|]. rewrite I.
        change (firstn (S (S n)) (x :: a)) with (x :: firstn (S n) a). change (firstn (S (S n)) (y :: b)) with (y :: firstn (S n) b). cbn [map]. split; [intros ->; f_equal; lia|intro Q; now injection Q].
      * exists (toupper x - toupper y). split; [reflexivity|]. change (firstn (S (S n)) (x :: a)) with (x :: firstn (S n) a). change (firstn (S (S n)) (y :: b)) with (y :: firstn (S n) b). cbn [map]. split; [lia|intro Q; injection Q; lia].
Qed.
Lemma digit_spec : forall s r, ~ In 0 s -> exists v, digit_loop (s ++ 0 :: r) = Ok v /\ (v = 0 \/ v = 1) /\ (v = 1 <-> Forall (fun c => 48 <= c <= 57) s).
Proof.
  induction s as [|c s IH]; intros r N.
  - exists 1. split; [reflexivity|]. split; [now right|]. split; [constructor|reflexivity].
  - assert (c <> 0) by (intro; subst; apply N; now left). cbn [Datatypes.app digit_loop]. replace (c =? 0) with false by lia. destruct ((c <? 48) || (57 <? c)) eqn:D.
    + exists 0. split; [reflexivity|]. split; [now left|]. split; [discriminate|]. intro F. inversion F; lia.
    + destruct (IH r) as (v & -> & V1 & V2); [intro; apply N; now right|]. exists v. split; [reflexivity|]. split; [exact V1|]. rewrite V2. split; [constructor; [lia|assumption]|intro F; now inversion F].
Qed.
Lemma first_same : forall (a b : bytes) n, (n <= length a)%nat -> (n <= length b)%nat -> (forall i, (i < n)%nat -> nth_error a i = nth_error b i) -> firstn n a = firstn n b.
Proof.
  intros a b n. revert a b. induction n as [|n IH]; intros a b La Lb E; [reflexivity|]. destruct a as [|x a], b as [|y b]; cbn in La, Lb; try lia. cbn. f_equal.
  - specialize (E 0%nat ltac:(lia)). cbn in E. congruence.
  - apply IH; [lia..|]. intros i I. apply (E (S i)). lia.
Qed.

(** Tokens *)
Lemma delimiter_spec : forall c ds r n, ~ In 0 ds -> (length ds <= n)%nat -> exists m, delimiter c n (ds ++ 0 :: r) = Ok (Some m) /\ (m = true <-> In c ds).
Proof.
  intros c ds r. induction ds as [|p ds IH]; intros n N L.
  - exists false. split; [destruct n; reflexivity|]. split; [discriminate|intros []].
  - assert (p <> 0) by (intro; subst; apply N; now left). cbn [Datatypes.app delimiter]. replace (p =? 0) with false by lia. destruct n as [|n]; [cbn in L; lia|].
    destruct (c =? p) eqn:E; [exists true; split; [reflexivity|]; split; [left; lia|reflexivity]|].
    destruct (IH n) as (m & -> & M); [intro; apply N; now right|cbn in L; lia|]. exists m. split; [reflexivity|]. rewrite M. split; [now right|intros [?|?]; [lia|assumption]].
Qed.
Section Tokens.
Variables (ds rd0 : bytes).
Hypothesis Nd : ~ In 0 ds.
Hypothesis Ld : (length ds <= 16)%nat.
Hypothesis Ed : ds <> [].
Lemma is_delim : forall c, In c ds -> delimiter c 16 (ds ++ 0 :: rd0) = Ok (Some true).
Proof. intros c I. destruct (delimiter_spec c ds rd0 16 Nd Ld) as (m & -> & M). apply M in I. now subst. Qed.
Lemma no_delim : forall c, ~ In c ds -> delimiter c 16 (ds ++ 0 :: rd0) = Ok (Some false).
Proof. intros c I. destruct (delimiter_spec c ds rd0 16 Nd Ld) as ([|] & -> & M); [exfalso; apply I; now apply M|reflexivity]. Qed.
Lemma first_delim : exists p, rd (ds ++ 0 :: rd0) 0 = Ok p /\ p <> 0.
Proof. destruct ds as [|p l]; [congruence|]. exists p. split; [reflexivity|]. intro; subst. apply Nd. now left. Qed.
Lemma start_skip : forall skip d i n, Forall (fun c => In c ds) skip -> len skip <= n ->
  token_start (ds ++ 0 :: rd0) (skip ++ d) i n = token_start (ds ++ 0 :: rd0) d (i + len skip) (n - len skip).
Proof.
  induction skip as [|c skip IH]; intros d i n F L.
  - cbn [Datatypes.app]. change (len (@nil Z)) with 0. now rewrite Z.add_0_r, Z.sub_0_r.
  - inversion F; subst. rewrite len_cons in *. pose proof (len_nonneg _ skip). cbn [Datatypes.app token_start]. replace (c =? 0) with false by (apply eq_sym, Z.eqb_neq; intro; subst; now apply Nd). replace (n =? 0) with false by lia.
    rewrite is_delim by assumption. cbn [bind]. rewrite IH by (assumption || lia). f_equal; lia.
Qed.
Lemma start_at : forall c d i n, ~ In c ds -> c <> 0 -> 0 < n -> token_start (ds ++ 0 :: rd0) (c :: d) i n = Ok (At i d (n - 1)).
Proof.
  intros c d i n I C P. cbn [token_start]. replace (c =? 0) with false by lia. replace (n =? 0) with false by lia. rewrite no_delim by exact I. cbn [bind].
  destruct first_delim as (p & -> & Np). cbn [bind]. replace (p =? 0) with false by lia. reflexivity.
Qed.
Lemma end_skip : forall tok d i n, ~ In 0 tok -> Forall (fun c => ~ In c ds) tok -> len tok <= n ->
  token_end (ds ++ 0 :: rd0) (tok ++ d) i n = token_end (ds ++ 0 :: rd0) d (i + len tok) (n - len tok).
Proof.
  induction tok as [|c tok IH]; intros d i n N F L.
  - cbn [Datatypes.app]. change (len (@nil Z)) with 0. now rewrite Z.add_0_r, Z.sub_0_r.
  - inversion F; subst. rewrite len_cons in *. pose proof (len_nonneg _ tok). cbn [Datatypes.app token_end]. replace (c =? 0) with false by (apply eq_sym, Z.eqb_neq; intro; subst; apply N; now left). replace (n =? 0) with false by lia.
    rewrite no_delim by assumption. cbn [bind]. rewrite IH; [f_equal; lia|intro; apply N; now right|assumption|lia].
Qed.
Lemma end_at : forall c d i n, In c ds -> 0 < n -> token_end (ds ++ 0 :: rd0) (c :: d) i n = Ok (At i d n).
Proof.
  intros c d i n I P. cbn [token_end]. replace (c =? 0) with false by (apply eq_sym, Z.eqb_neq; intro; subst; now apply Nd). replace (n =? 0) with false by lia. rewrite is_delim by exact I. reflexivity.
Qed.
End Tokens.
