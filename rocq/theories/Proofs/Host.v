(** Host name verification. *)
From Coq Require Import String ZArith List Bool Lia ZifyBool ZifyNat.
From Verif Require Import Base Spec.Http Spec.Host Model.EstErr Model.Host Proofs.Codec.
Import ListNotations.
Open Scope Z_scope.

Lemma raw_toupper_tolower : forall x y, raw_toupper x = raw_toupper y <-> tolower x = tolower y.
Proof. intros x y. unfold raw_toupper, tolower, isupper. split; intro H; repeat match goal with |- context [if ?b then _ else _] => destruct b eqn:? | H : context [if ?b then _ else _] |- _ => destruct b eqn:? end; lia. Qed.
Lemma raw_equal_spec : forall a b, raw_equal a b = true <-> case_eq a b.
Proof.
  unfold case_eq. induction a as [|x a IH]; intros [|y b]; cbn [raw_equal map]; try (split; (discriminate || reflexivity)).
  destruct (Z.eqb_spec (raw_toupper x) (raw_toupper y)) as [E|E]; cbn [negb].
  - rewrite IH. apply raw_toupper_tolower in E. rewrite E. split; intro H; congruence.
  - split; [discriminate|]. intro H. exfalso. apply E. apply raw_toupper_tolower. congruence.
Qed.
Lemma raw_nequal_spec : forall n a b, raw_nequal a b n = true <-> case_eq (firstn n a) (firstn n b).
Proof.
  unfold case_eq. induction n as [|n IH]; intros a b; cbn [raw_nequal firstn]; [split; reflexivity|].
  destruct a as [|x a], b as [|y b]; cbn [map]; try (split; (discriminate || reflexivity)).
  destruct (Z.eqb_spec (raw_toupper x) (raw_toupper y)) as [E|E]; cbn [negb].
  - rewrite IH. apply raw_toupper_tolower in E. rewrite E. split; intro H; congruence.
  - split; [discriminate|]. intro H. exfalso. apply E. apply raw_toupper_tolower. congruence.
Qed.
Lemma strchr_some : forall s c n, strchr s c = Some n <-> exists a b, s = a ++ c :: b /\ ~ In c a /\ length a = n.
Proof.
  induction s as [|x s IH]; intros c n; cbn [strchr].
  - split; [discriminate|]. intros ([|] & b & E & _); discriminate.
  - destruct (Z.eqb_spec x c) as [->|N].
    + split.
      * intro H. injection H as <-. exists [], s. auto.
      * intros ([|y a] & b & E & I & <-); [reflexivity|]. exfalso. injection E as <- _. apply I. now left.
    + destruct (strchr s c) as [m|] eqn:Es; cbn [option_map].
      * destruct (proj1 (IH c m) Es) as (a & b & -> & I & L). split.
        -- intro H. injection H as <-. exists (x :: a), b. split; [reflexivity|]. split; [intros [?|?]; auto|cbn; lia].
        -- intros ([|y a'] & b' & E & I' & <-); [exfalso; injection E as -> _; contradiction|]. injection E as <- E. f_equal. cbn [length]. f_equal.
           assert (Q : strchr (a ++ c :: b) c = Some (length a')). { apply IH. exists a', b'. split; [exact E|]. split; [|reflexivity]. intro J. apply I'. now right. }
           congruence.
      * split; [discriminate|]. intros ([|y a'] & b' & E & I' & <-); [exfalso; injection E as -> _; contradiction|]. injection E as <- ->.
        assert (Q : strchr (a' ++ c :: b') c = Some (length a')). { apply IH. exists a', b'. split; [reflexivity|]. split; [|reflexivity]. intro J. apply I'. now right. } congruence.
Qed.
Lemma strchr_none : forall s c, strchr s c = None <-> ~ In c s.
Proof.
  intros s c. split.
  - intros H I. apply in_split in I as (a & b & E). revert H. induction s as [|x s IH] in a, b, E |- *; [destruct a; discriminate|]. cbn [strchr].
    destruct (Z.eqb_spec x c); [discriminate|]. destruct a as [|y a]; injection E as -> E; [contradiction|]. intro H. apply (IH a b E). destruct (strchr s c); [discriminate|reflexivity].
  - intro N. destruct (strchr s c) as [n|] eqn:E; [|reflexivity]. exfalso. apply strchr_some in E as (a & b & -> & _). apply N. apply in_or_app. right. now left.
Qed.
Lemma case_sym : forall a b, case_eq a b -> case_eq b a.
Proof. unfold case_eq. congruence. Qed.
Lemma case_len : forall a b, case_eq a b -> length a = length b.
Proof. unfold case_eq. intros a b H. rewrite <- (map_length tolower a), H. apply map_length. Qed.
Lemma tolower_dot : forall x, tolower x = 46 <-> x = 46.
Proof. intro x. unfold tolower, isupper. destruct (_ && _) eqn:E; lia. Qed.
Lemma case_dot : forall a b, case_eq a b -> In 46 a -> In 46 b.
Proof.
  intros a b H I. apply (in_map tolower) in I. rewrite H in I. change (tolower 46) with 46 in I. apply in_map_iff in I as (x & E & I). apply (proj1 (tolower_dot x)) in E. subst x. exact I.
Qed.
Lemma case_app : forall a b c d, case_eq a c -> case_eq b d -> case_eq (a ++ b) (c ++ d).
Proof. unfold case_eq. intros. rewrite !map_app. congruence. Qed.
Lemma case_app_inv : forall a b c d, length a = length c -> case_eq (a ++ b) (c ++ d) -> case_eq a c /\ case_eq b d.
Proof.
  unfold case_eq. intros a b c d L H. rewrite !map_app in H. assert (L' : length (map tolower a) = length (map tolower c)) by now rewrite !map_length.
  split; [|].
  - apply (f_equal (firstn (length (map tolower a)))) in H. rewrite firstn_app, Nat.sub_diag, firstn_all, app_nil_r in H. rewrite L', firstn_app, Nat.sub_diag, firstn_all, app_nil_r in H. exact H.
  - apply (f_equal (skipn (length (map tolower a)))) in H. rewrite skipn_app, Nat.sub_diag, skipn_all in H. rewrite L', skipn_app, Nat.sub_diag, skipn_all in H. exact H.
Qed.

Lemma case_split : forall s p q, case_eq s (p ++ q) -> exists a b, s = a ++ b /\ case_eq a p /\ case_eq b q.
Proof.
  unfold case_eq. intros s p q H. exists (firstn (length p) s), (skipn (length p) s). split; [symmetry; apply firstn_skipn|].
  rewrite <- firstn_map, <- skipn_map, H, map_app. rewrite <- (map_length tolower p). rewrite firstn_app, skipn_app, Nat.sub_diag, firstn_all, skipn_all. cbn [firstn skipn app]. rewrite app_nil_r. auto.
Qed.
Lemma skipn_add : forall (A : Type) n m (l : list A), skipn n (skipn m l) = skipn (m + n) l.
Proof. intros A n m. induction m as [|m IH]; intro l; [reflexivity|]. destruct l; [cbn; apply skipn_nil|]. cbn [skipn Nat.add]. apply IH. Qed.

Section Pton.
Variables pton4 pton6 : bytes -> option bytes.
Notation hostmatch := (est_client_hostmatch pton4 pton6).
Notation hostcheck := (est_client_cert_hostcheck pton4 pton6).
Notation covers := (covers pton4 pton6).
Notation is_address := (is_address pton4 pton6).

Lemma is_address_iff : forall host, is_address host <-> is_some (pton4 host) = true \/ is_some (pton6 host) = true.
Proof.
  intro host. unfold Spec.Host.is_address, address. split.
  - intros (a & [E|[_ E]]); rewrite E; auto.
  - destruct (pton4 host) as [a|] eqn:E4; [intros _; eauto|]. intros [H|H]; [discriminate|]. destruct (pton6 host) as [a|] eqn:E6; [eauto|discriminate].
Qed.

Definition wild_covers (pattern host : bytes) : Prop :=
  ~ is_address host /\ exists pre suf rest, wildcard pattern pre suf rest
    /\ exists a b c r, host = a ++ b ++ c ++ str "." ++ r /\ ~ In 46 (a ++ b ++ c) /\ case_eq a pre /\ b <> [] /\ case_eq c suf /\ case_eq r rest.

Lemma dot_split : forall a b c d, ~ In 46 a -> ~ In 46 c -> a ++ 46 :: b = c ++ 46 :: d -> a = c /\ b = d.
Proof.
  induction a as [|x a IH]; intros b [|y c] d Na Nc E; cbn [app] in E.
  - injection E as ->. auto.
  - injection E as <- _. exfalso. apply Nc. now left.
  - injection E as -> _. exfalso. apply Na. now left.
  - injection E as -> E. destruct (IH b c d) as [-> ->]; auto; intro I; [apply Na|apply Nc]; now right.
Qed.

Lemma hostmatch_spec : forall host pattern, hostmatch host pattern = true <-> case_eq pattern host /\ (In 42 pattern -> ~ is_address host) \/ wild_covers pattern host.
Proof.
  intros host pattern. unfold est_client_hostmatch.
  assert (NW : ~ In 42 pattern -> ~ wild_covers pattern host).
  { intros N (_ & pre & suf & rest & (E & _) & _). apply N. rewrite E. apply in_or_app. right. now left. }
  destruct (strchr pattern 42) as [wild|] eqn:Ew.
  2: { apply strchr_none in Ew. rewrite raw_equal_spec. split; [intro H; left; split; [exact H|contradiction]|]. intros [[H _]|H]; [exact H|]. destruct (NW Ew H). }
  assert (Iw : In 42 pattern) by (apply strchr_some in Ew as (a & b & -> & _); apply in_or_app; right; now left).
  destruct (is_some (pton4 host)) eqn:E4.
  { assert (A : is_address host) by (apply is_address_iff; auto). split; [discriminate|]. intros [[_ H]|[H _]]; exfalso; tauto. }
  destruct (is_some (pton6 host)) eqn:E6.
  { assert (A : is_address host) by (apply is_address_iff; auto). split; [discriminate|]. intros [[_ H]|[H _]]; exfalso; tauto. }
  assert (NA : ~ is_address host) by (rewrite is_address_iff; intros [?|?]; congruence). clear E4 E6 NW.
  apply strchr_some in Ew as (pre & tl & Ep & Npre & Lw).
  (* no wildcard form: compared literally *)
  assert (Lit : (forall pre suf rest, ~ wildcard pattern pre suf rest) -> raw_equal pattern host = true <-> case_eq pattern host /\ (In 42 pattern -> ~ is_address host) \/ wild_covers pattern host).
  { intro N. rewrite raw_equal_spec. split; [intro H; left; split; [exact H|intros _; exact NA]|]. intros [[H _]|(_ & p & s & r & W & _)]; [exact H|]. destruct (N _ _ _ W). }
  assert (Pre : forall p s r, wildcard pattern p s r -> p = pre /\ tl = s ++ 46 :: r).
  { intros p s r (E & Np & _). rewrite Ep in E. change (str "*" ++ s ++ str "." ++ r) with (42 :: s ++ 46 :: r) in E. clear - E Np Npre.
    revert p Np E. induction pre as [|x pre IH]; intros [|y p] Np E; cbn [app] in E.
    - injection E as ->. auto.
    - injection E as <- _. exfalso. apply Np. now left.
    - injection E as -> _. exfalso. apply Npre. now left.
    - injection E as -> E. destruct (IH (fun I => Npre (or_intror I)) p (fun I => Np (or_intror I)) E) as [-> ->]. auto. }
  destruct (strchr pattern 46) as [e|] eqn:Ee.
  2: { apply Lit. intros p s r (E & _). apply strchr_none in Ee. apply Ee. rewrite E. rewrite !in_app_iff. right. right. right. left. now left. }
  apply strchr_some in Ee as (lab & rest & El & Nlab & Le).
  assert (Sk : skipn (e + 1) pattern = rest) by (rewrite El, <- Le; change (46 :: rest) with ([46] ++ rest); rewrite app_assoc; replace (length lab + 1)%nat with (length (lab ++ [46])) by (rewrite app_length; reflexivity); now rewrite skipn_app, Nat.sub_diag, skipn_all).
  rewrite Sk.
  destruct (is_some (strchr rest 46)) eqn:Er; cbn [negb orb].
  2: { apply Lit. intros p s r (E & _ & Np & Ns & Ir & _). apply (dot_split (p ++ str "*" ++ s) r lab rest) in Nlab.
       - destruct Nlab as [_ <-]. destruct (strchr r 46) eqn:Q; [discriminate|]. apply strchr_none in Q. contradiction.
       - rewrite !in_app_iff. cbn. intros [?|[[?|[]]|?]]; [contradiction|discriminate|contradiction].
       - rewrite <- El, E, <- !app_assoc. reflexivity. }
  assert (Ir : In 46 rest). { destruct (strchr rest 46) eqn:Q; [|discriminate]. apply strchr_some in Q as (x & y & -> & _). apply in_or_app. right. now left. }
  clear Er.
  destruct (e <? wild)%nat eqn:Eew; cbn [orb].
  { apply Lit. intros p s r W. destruct (Pre p s r W) as [-> ->]. destruct W as (E & _ & Np & Ns & _). apply (dot_split (pre ++ str "*" ++ s) r lab rest) in Nlab.
    - destruct Nlab as [Q _]. rewrite <- Q, !app_length in Le. lia.
    - rewrite !in_app_iff. cbn. intros [?|[[?|[]]|?]]; [contradiction|discriminate|contradiction].
    - rewrite <- El, E, <- !app_assoc. reflexivity. }
  destruct (raw_nequal pattern (str "xn--") 4) eqn:Ex.
  { apply Lit. intros p s r (E & _ & _ & _ & _ & X). apply raw_nequal_spec in Ex. change (firstn 4 (str "xn--")) with (str "xn--") in Ex.
    apply (X (firstn 4 pattern) (skipn 4 pattern)); [now rewrite firstn_skipn| |exact Ex]. apply case_len in Ex. unfold len. rewrite Ex. reflexivity. }
  (* the wildcard is in the left-most label *)
  assert (Lp : exists suf, lab = pre ++ 42 :: suf /\ tl = suf ++ 46 :: rest).
  { rewrite Ep in El. assert (Lpre : (length pre < length lab)%nat).
    { assert (length pre <> length lab). { intro Q. rewrite Ep in *. clear - El Q. revert lab El Q. induction pre as [|x pre IH]; intros [|y lab] El Q; try discriminate. cbn [app length] in *. injection El as -> El. apply (IH lab El). lia. } lia. }
    clear - El Lpre. revert lab El Lpre. induction pre as [|x pre IH]; intros [|y lab] El Lpre; cbn [app length] in *; try lia.
    - injection El as <- ->. exists lab. auto.
    - injection El as -> El. destruct (IH lab El ltac:(lia)) as (suf & -> & ->). exists suf. auto. }
  destruct Lp as (suf & El2 & Et).
  assert (W : wildcard pattern pre suf rest).
  { split; [rewrite Ep, Et; reflexivity|]. split; [exact Npre|]. split; [|split; [|split; [exact Ir|]]].
    - intro I. apply Nlab. rewrite El2. apply in_or_app. now left.
    - intro I. apply Nlab. rewrite El2. apply in_or_app. right. now right.
    - intros x t E L C. assert (Q : raw_nequal pattern (str "xn--") 4 = true); [|congruence]. apply raw_nequal_spec. change (firstn 4 (str "xn--")) with (str "xn--").
      rewrite E. assert (L4 : length x = 4%nat) by (unfold len in L; lia). rewrite <- L4, firstn_app, Nat.sub_diag, firstn_all. cbn [firstn]. rewrite app_nil_r. exact C. }
  assert (Uniq : forall p s r, wildcard pattern p s r -> p = pre /\ s = suf /\ r = rest).
  { intros p s r W'. destruct (Pre p s r W') as [-> E]. destruct W' as (_ & _ & _ & Ns & _). destruct W as (_ & _ & _ & Ns' & _). rewrite Et in E. destruct (dot_split suf rest s r Ns' Ns E) as [-> ->]. auto. }
  assert (Se : skipn e pattern = 46 :: rest) by (rewrite El, <- Le, skipn_app, Nat.sub_diag, skipn_all; reflexivity).
  assert (Sw : skipn (wild + 1) pattern = suf ++ 46 :: rest).
  { rewrite Ep, <- Lw, Et. change (42 :: suf ++ 46 :: rest) with ([42] ++ suf ++ 46 :: rest). rewrite app_assoc. replace (length pre + 1)%nat with (length (pre ++ [42])) by (rewrite app_length; reflexivity). now rewrite skipn_app, Nat.sub_diag, skipn_all. }
  assert (Lsuf : (e - (wild + 1))%nat = length suf) by (rewrite <- Le, El2, app_length, <- Lw; cbn [length]; lia).
  assert (Only : wild_covers pattern host <-> exists a b c r, host = a ++ b ++ c ++ str "." ++ r /\ ~ In 46 (a ++ b ++ c) /\ case_eq a pre /\ b <> [] /\ case_eq c suf /\ case_eq r rest).
  { split.
    - intros (_ & p & s & r & W' & H). destruct (Uniq _ _ _ W') as (-> & -> & ->). exact H.
    - intro H. split; [exact NA|]. exists pre, suf, rest. auto. }
  assert (Eq : case_eq pattern host -> wild_covers pattern host).
  { intro C. apply Only. rewrite Ep, Et in C. apply case_sym in C.
    destruct (case_split host pre (42 :: suf ++ 46 :: rest) C) as (a & h1 & -> & Ca & C1).
    destruct (case_split h1 [42] (suf ++ 46 :: rest) C1) as (b & h2 & -> & Cb & C2).
    destruct (case_split h2 suf (46 :: rest) C2) as (c & h3 & -> & Cc & C3).
    destruct h3 as [|x r]; [discriminate|]. unfold case_eq in C3. cbn [map] in C3. assert (Ed : tolower x = 46) by (change (tolower 46) with 46 in C3; congruence). apply (proj1 (tolower_dot x)) in Ed. subst x.
    exists a, b, c, r. split; [reflexivity|]. split.
    - intro I. assert (K : forall u v, case_eq u v -> ~ In 46 v -> ~ In 46 u) by (intros u v Q N J; apply N; eapply case_dot; eassumption).
      assert (N1 : ~ In 46 pre) by apply W. assert (N2 : ~ In 46 suf) by apply W. rewrite !in_app_iff in I. destruct I as [I|[I|I]].
      + now apply (K a pre).
      + apply (K b [42]); auto. intros [Q|[]]. discriminate.
      + now apply (K c suf).
    - split; [exact Ca|]. split; [intros ->; discriminate|]. split; [exact Cc|]. unfold case_eq. congruence. }
  cbv zeta. rewrite Lsuf, Se, Sw.
  destruct (strchr host 46) as [h|] eqn:Eh.
  2: { split; [discriminate|]. intro H. exfalso. assert (Wc : wild_covers pattern host) by tauto. apply Only in Wc as (a & b & c & r & -> & _). apply strchr_none in Eh. apply Eh. rewrite !in_app_iff. right. right. right. left. now left. }
  apply strchr_some in Eh as (hl & hr & Eh & Nhl & Lh).
  assert (Sh : skipn h host = 46 :: hr) by (rewrite Eh, <- Lh, skipn_app, Nat.sub_diag, skipn_all; reflexivity). rewrite Sh.
  destruct (raw_equal (46 :: rest) (46 :: hr)) eqn:Erest; cbn [negb].
  2: { split; [discriminate|]. intro H. exfalso. assert (Wc : wild_covers pattern host) by tauto. apply Only in Wc as (a & b & c & r & E & Nd & _ & _ & _ & Cr).
       assert (Q : (a ++ b ++ c) ++ 46 :: r = hl ++ 46 :: hr) by (rewrite <- Eh, E, <- !app_assoc; reflexivity). destruct (dot_split _ _ _ _ Nd Nhl Q) as [_ <-].
       assert (raw_equal (46 :: rest) (46 :: r) = true); [|congruence]. apply raw_equal_spec. unfold case_eq in *. cbn [map]. now rewrite Cr. }
  apply raw_equal_spec in Erest.
  destruct (h <? e)%nat eqn:Ehe.
  { split; [discriminate|]. intro H. exfalso. assert (Wc : wild_covers pattern host) by tauto. apply Only in Wc as (a & b & c & r & E & Nd & Ca & Nb & Cc & Cr).
    assert (Q : (a ++ b ++ c) ++ 46 :: r = hl ++ 46 :: hr) by (rewrite <- Eh, E, <- !app_assoc; reflexivity). destruct (dot_split _ _ _ _ Nd Nhl Q) as [Ehl _].
    apply case_len in Ca, Cc. assert (Ll : length lab = (length pre + S (length suf))%nat) by (rewrite El2, app_length; reflexivity). assert (length hl = (length a + (length b + length c))%nat) by (rewrite <- Ehl, !app_length; lia). assert (length b <> 0)%nat by (destruct b; [contradiction|cbn; lia]). lia. }
  rewrite andb_true_iff, !raw_nequal_spec. rewrite firstn_app, Nat.sub_diag, firstn_all. cbn [firstn]. rewrite app_nil_r.
  rewrite Ep at 1. rewrite <- Lw at 1. rewrite firstn_app, Nat.sub_diag, firstn_all. cbn [firstn]. rewrite app_nil_r.
  assert (Ll : length lab = (length pre + S (length suf))%nat) by (rewrite El2, app_length; reflexivity).
  split.
  - intros [C1 C2]. right. apply Only.
    exists (firstn wild hl), (firstn (h - wild - length suf) (skipn wild hl)), (skipn (h - length suf) hl), hr.
    assert (Lhl : (length lab <= length hl)%nat) by lia.
    assert (E1 : firstn wild host = firstn wild hl) by (rewrite Eh, firstn_app; replace (wild - length hl)%nat with 0%nat by lia; cbn [firstn]; apply app_nil_r).
    assert (E2 : firstn (length suf) (skipn (h - length suf) host) = skipn (h - length suf) hl).
    { rewrite Eh, skipn_app. replace (h - length suf - length hl)%nat with 0%nat by lia. cbn [skipn]. rewrite firstn_app, skipn_length.
      replace (length suf - (length hl - (h - length suf)))%nat with 0%nat by lia. cbn [firstn]. rewrite app_nil_r. apply firstn_all2. rewrite skipn_length. lia. }
    assert (E3 : hl = firstn wild hl ++ firstn (h - wild - length suf) (skipn wild hl) ++ skipn (h - length suf) hl).
    { rewrite <- (firstn_skipn wild hl) at 1. f_equal. rewrite <- (firstn_skipn (h - wild - length suf) (skipn wild hl)) at 1. f_equal.
      rewrite skipn_add. f_equal. lia. }
    split; [rewrite Eh; rewrite E3 at 1; rewrite <- !app_assoc; reflexivity|].
    split; [rewrite <- E3; exact Nhl|]. split; [apply case_sym; rewrite <- E1; exact C1|]. split.
    { intro Q. apply (f_equal (@length Z)) in Q. rewrite firstn_length, skipn_length in Q. cbn [length] in Q. lia. }
    split; [apply case_sym; rewrite <- E2; exact C2|]. apply case_sym. unfold case_eq in *. cbn [map] in Erest. congruence.
  - intro H. assert (Wc : wild_covers pattern host) by tauto. apply Only in Wc as (a & b & c & r & E & Nd & Ca & Nb & Cc & Cr).
    assert (Q : (a ++ b ++ c) ++ 46 :: r = hl ++ 46 :: hr) by (rewrite <- Eh, E, <- !app_assoc; reflexivity). destruct (dot_split _ _ _ _ Nd Nhl Q) as [Ehl _].
    pose proof (case_len _ _ Ca) as La. pose proof (case_len _ _ Cc) as Lc.
    assert (Lhl : length hl = (length a + (length b + length c))%nat) by (rewrite <- Ehl, !app_length; lia).
    split.
    + apply case_sym. replace wild with (length a) by lia. rewrite E, firstn_app, Nat.sub_diag, firstn_all. cbn [firstn]. rewrite app_nil_r. exact Ca.
    + apply case_sym. rewrite E. replace (h - length suf)%nat with (length (a ++ b)) by (rewrite app_length; lia). rewrite app_assoc, skipn_app, Nat.sub_diag, skipn_all. cbn [skipn app].
      replace (length suf) with (length c) by lia. rewrite firstn_app, Nat.sub_diag, firstn_all. cbn [firstn]. rewrite app_nil_r. exact Cc.
Qed.
Lemma hostcheck_spec : forall pattern host, hostcheck pattern host = true <-> covers pattern host.
Proof.
  intros pattern host. unfold est_client_cert_hostcheck, Spec.Host.covers. destruct pattern as [|x pattern]; [split; [discriminate|intros (N & _); contradiction]|].
  destruct host as [|y host]; [split; [discriminate|intros (_ & N & _); contradiction]|].
  destruct (raw_equal (y :: host) (x :: pattern)) eqn:E.
  - apply raw_equal_spec in E. split; [intros _; split; [discriminate|]; split; [discriminate|]; left; now apply case_sym|reflexivity].
  - rewrite hostmatch_spec. unfold wild_covers. split.
    + intros [[H _]|H]; (split; [discriminate|]; split; [discriminate|]); [now left|now right].
    + intros (_ & _ & [H|H]); [|now right]. exfalso. apply case_sym, raw_equal_spec in H. congruence.
Qed.

(** ** Names of the certificate *)
Lemma upto_nul_len : forall d, len (upto_nul d) <= len d.
Proof. intro d. unfold upto_nul. induction d as [|x d IH]; cbn [take_while]; [lia|]. destruct (negb (x =? 0)); rewrite ?len_cons; pose proof (len_nonneg _ d); [lia|]. change (len (@nil Z)) with 0. lia. Qed.
Lemma upto_nul_id : forall d, len (upto_nul d) = len d <-> ~ In 0 d.
Proof.
  unfold upto_nul. induction d as [|x d IH]; cbn [take_while In]; [tauto|]. destruct (Z.eqb_spec x 0) as [->|N]; cbn [negb].
  - rewrite len_cons. change (len (@nil Z)) with 0. pose proof (len_nonneg _ d). split; [lia|]. intro K. exfalso. apply K. now left.
  - rewrite !len_cons. split; [intros H [I|I]; [contradiction|apply IH in I; [exact I|lia]]|]. intro H. assert (~ In 0 d) by tauto. apply IH in H0. lia.
Qed.
Lemma upto_nul_same : forall d, ~ In 0 d -> upto_nul d = d.
Proof.
  unfold upto_nul. induction d as [|x d IH]; intro N; cbn [take_while]; [reflexivity|]. cbn [In] in N. replace (x =? 0) with false by lia. cbn [negb]. f_equal. apply IH. tauto.
Qed.
Lemma strnlen_fits : forall d, (len d =? strnlen_s d 255) = true <-> usable_name d.
Proof.
  intro d. unfold strnlen_s, usable_name. rewrite <- upto_nul_id, Z.eqb_eq. pose proof (upto_nul_len d). lia.
Qed.
Lemma name_spec : forall d host, (len d =? strnlen_s d 255) && hostcheck (upto_nul d) host = true <-> usable_name d /\ covers d host.
Proof.
  intros d host. rewrite andb_true_iff, strnlen_fits, hostcheck_spec. split; intros [U C]; (split; [exact U|]); rewrite upto_nul_same in *; auto; apply U.
Qed.

Lemma host_address_spec : forall host a, host_address pton4 pton6 host = Some a <-> address pton4 pton6 host a.
Proof.
  intros host a. unfold host_address, address. destruct (pton4 host) as [b|].
  - split; [intro H; now left|]. intros [H|[H _]]; [exact H|discriminate].
  - split; [intro H; now right|]. intros [H|[_ H]]; [discriminate|exact H].
Qed.
Lemma beq_self : forall d a : bytes, len d = len a -> beq d (firstn (length d) a) = true <-> d = a.
Proof. intros d a L. rewrite beq_eq, firstn_all2 by (unfold len in L; lia). reflexivity. Qed.

Definition hit (host : bytes) (n : general_name) : Prop :=
  match n with DNS d => usable_name d /\ covers d host | IPADD a => address pton4 pton6 host a | OtherName => False end.
Definition ip_fits (host : bytes) (n : general_name) : Prop := match n with IPADD d => forall a, address pton4 pton6 host a -> len d <= len a | _ => True end.
Lemma alt_loop_spec : forall host names m, m = -1 \/ m = 0 ->
  (forall r, alt_loop pton4 pton6 host names m = Ok r -> r = 1 /\ Exists (hit host) names \/ (r = 0 \/ r = -1) /\ ~ Exists (hit host) names /\ (r = -1 <-> m = -1 /\ Forall (fun n => n = OtherName) names))
  /\ (Forall (ip_fits host) names -> exists r, alt_loop pton4 pton6 host names m = Ok r).
Proof.
  intros host names. induction names as [|n names IH]; intros m Hm; cbn [alt_loop].
  - split; [|intros _; eauto]. intros r H. assert (r = m) by congruence. subst r. right. split; [tauto|]. split; [intro H0; inversion H0|]. split; [intro; split; [assumption|constructor]|tauto].
  - destruct n as [d|d|]; cbn [bind].
    + destruct ((len d =? strnlen_s d 255) && hostcheck (upto_nul d) host) eqn:E.
      * change (1 =? 1) with true. cbv iota. apply name_spec in E. split; [|intros _; eauto]. intros r H. left. split; [congruence|]. constructor. exact E.
      * change (0 =? 1) with false. cbv iota. assert (N : ~ hit host (DNS d)) by (cbn [hit]; rewrite <- name_spec; congruence). destruct (IH 0 (or_intror eq_refl)) as [H1 H2]. split.
        -- intros r H. destruct (H1 r H) as [[-> X]|(R & X & Y)]; [left; split; [reflexivity|now right]|]. right. split; [exact R|]. split; [intro Q; inversion Q; subst; contradiction|].
           split; [intro Q; apply Y in Q; destruct Q; discriminate|]. intros [_ Q]. inversion Q. discriminate.
        -- intro F. apply H2. now inversion F.
    + destruct (host_address pton4 pton6 host) as [a|] eqn:Ea.
      * apply host_address_spec in Ea. destruct (len a <? len d) eqn:El; cbn [bind].
        { split; [discriminate|]. intro F. inversion F as [|? ? F1 _]; subst. specialize (F1 a Ea). lia. }
        destruct ((len d =? len a) && beq d (firstn (length d) a)) eqn:E; cbn [bind].
        -- change (1 =? 1) with true. cbv iota. split; [|intros _; eauto]. intros r H. left. split; [congruence|]. constructor. cbn [hit]. apply andb_true_iff in E as [E1 E2].
           apply beq_self in E2; [now subst|lia].
        -- change (0 =? 1) with false. cbv iota. assert (N : ~ hit host (IPADD d)).
           { cbn [hit]. intro Q. assert (d = a) by (apply host_address_spec in Q, Ea; congruence). subst d. rewrite Z.eqb_refl in E. cbn [andb] in E. rewrite (proj2 (beq_self a a eq_refl)) in E; congruence. }
           destruct (IH 0 (or_intror eq_refl)) as [H1 H2]. split.
           ++ intros r H. destruct (H1 r H) as [[-> X]|(R & X & Y)]; [left; split; [reflexivity|now right]|]. right. split; [exact R|]. split; [intro Q; inversion Q; subst; contradiction|].
              split; [intro Q; apply Y in Q; destruct Q; discriminate|]. intros [_ Q]. inversion Q. discriminate.
           ++ intro F. apply H2. now inversion F.
      * cbn [bind]. change (0 =? 1) with false. cbv iota. assert (N : ~ hit host (IPADD d)) by (cbn [hit]; intro Q; apply host_address_spec in Q; congruence).
        destruct (IH 0 (or_intror eq_refl)) as [H1 H2]. split.
        -- intros r H. destruct (H1 r H) as [[-> X]|(R & X & Y)]; [left; split; [reflexivity|now right]|]. right. split; [exact R|]. split; [intro Q; inversion Q; subst; contradiction|].
           split; [intro Q; apply Y in Q; destruct Q; discriminate|]. intros [_ Q]. inversion Q. discriminate.
        -- intro F. apply H2. now inversion F.
    + replace (m =? 1) with false by lia. destruct (IH m Hm) as [H1 H2]. split.
      * intros r H. destruct (H1 r H) as [[-> X]|(R & X & Y)]; [left; split; [reflexivity|now right]|]. right. split; [exact R|]. split; [intro Q; inversion Q; subst; contradiction|].
        rewrite Y. split; intros [A B]; (split; [exact A|]); [now constructor|now inversion B].
      * intro F. apply H2. now inversion F.
Qed.
Lemma last_some : forall (cns : list (option bytes)) cn, last cns None = Some cn <-> exists l, cns = l ++ [Some cn].
Proof.
  intros cns cn. split.
  - intro H. destruct (exists_last (l := cns)) as (l & x & ->); [intros ->; discriminate|]. rewrite last_last in H. subst x. eauto.
  - intros (l & ->). apply last_last.
Qed.
Definition altl (alts : option (list general_name)) : list general_name := match alts with Some l => l | None => [] end.
Lemma exists_hit : forall host names, Exists (hit host) names <-> (exists d, In (DNS d) names /\ usable_name d /\ covers d host) \/ (exists a, In (IPADD a) names /\ address pton4 pton6 host a).
Proof.
  intros host names. rewrite Exists_exists. split.
  - intros ([d|d|] & I & H); cbn [hit] in H; [left; eauto|right; eauto|contradiction].
  - intros [(d & I & H)|(a & I & H)]; [exists (DNS d)|exists (IPADD a)]; auto.
Qed.
Theorem verifyhost_spec : forall host alts cns,
  (forall e, est_client_verifyhost pton4 pton6 host alts cns = Ok e ->
     e = EST_ERR_NONE /\ identifies pton4 pton6 (altl alts) cns host \/ e = EST_ERR_FQDN_MISMATCH /\ ~ identifies pton4 pton6 (altl alts) cns host)
  /\ (Forall (ip_fits host) (altl alts) -> exists e, est_client_verifyhost pton4 pton6 host alts cns = Ok e).
Proof.
  intros host alts cns. unfold est_client_verifyhost.
  replace (match alts with Some l => alt_loop pton4 pton6 host l (-1) | None => Ok (-1) end) with (alt_loop pton4 pton6 host (altl alts) (-1)) by (destruct alts; reflexivity).
  destruct (alt_loop_spec host (altl alts) (-1) (or_introl eq_refl)) as [H1 H2]. unfold identifies.
  destruct (alt_loop pton4 pton6 host (altl alts) (-1)) as [m|] eqn:E; cbn [bind].
  2: { split; [discriminate|]. intro F. destruct (H2 F). discriminate. }
  specialize (H1 m eq_refl). rewrite exists_hit in H1. clear H2 E.
  destruct H1 as [[-> X]|(R & X & Y)].
  { change (1 =? 1) with true. cbv iota. split; [|eauto]. intros e H. left. split; [congruence|]. tauto. }
  replace (m =? 1) with false by lia. destruct (Z.eqb_spec m 0) as [->|N0].
  { split; [|eauto]. intros e H. right. split; [congruence|]. intros [Q|[Q|[Q _]]]; [tauto|tauto|]. assert (0 = -1) by (apply Y; auto). discriminate. }
  assert (m = -1) by lia. subst m. destruct (proj1 Y eq_refl) as [_ Fo].
  destruct (last cns None) as [cn|] eqn:El.
  2: { split; [|eauto]. intros e H. right. split; [congruence|]. intros [Q|[Q|[_ (l & cn & -> & _)]]]; [tauto|tauto|]. rewrite last_last in El. discriminate. }
  assert (Only : forall l c', cns = l ++ [Some c'] -> c' = cn) by (intros l c' ->; rewrite last_last in El; congruence).
  destruct (strnlen_s cn 255 =? len cn) eqn:E1; cbn [negb].
  2: { split; [|eauto]. intros e H. right. split; [congruence|]. intros [Q|[Q|[_ (l & c' & Ec & U & _)]]]; [tauto|tauto|]. apply Only in Ec. subst c'. apply strnlen_fits in U. lia. }
  assert (U : usable_name cn) by (apply strnlen_fits; lia).
  destruct (hostcheck (upto_nul cn) host) eqn:E2; cbn [negb]; rewrite upto_nul_same in E2 by apply U.
  - apply hostcheck_spec in E2. split; [|eauto]. intros e H. left. split; [congruence|]. right. right. split; [exact Fo|]. apply last_some in El as (l & ->). eauto.
  - split; [|eauto]. intros e H. right. split; [congruence|]. intros [Q|[Q|[_ (l & c' & Ec & _ & C)]]]; [tauto|tauto|]. apply Only in Ec. subst c'. apply hostcheck_spec in C. congruence.
Qed.
End Pton.
