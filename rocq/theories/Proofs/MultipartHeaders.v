(** The headers of a key generation response and the boundary string. *)
From Coq Require Import String ZArith List Bool Lia ZifyBool ZifyNat.
From Verif Require Import Base Spec.Http Spec.Client Spec.Multipart Model.CLib Model.EstErr Model.HttpServer Model.ClientHttp Model.Multipart
  Proofs.HttpParse Proofs.HttpRender Proofs.ClientHeaders Proofs.ClientHttp Proofs.MultipartRun.
Import ListNotations.
Open Scope Z_scope.

(** ** Writing one byte *)
Lemma wr_at : forall a c z v, wr (a ++ c :: z) (len a) v = Ok (a ++ v :: z).
Proof.
  intros. rewrite wr_len. rewrite len_app, len_cons. pose proof (len_nonneg _ a). pose proof (len_nonneg _ z). replace (_ && _) with true by lia. f_equal.
  unfold len. rewrite Nat2Z.id. clear. induction a as [|x a IH]; cbn [app length set_nth]; [reflexivity|now rewrite IH].
Qed.
Lemma wr_at' : forall m a c z v o, m = a ++ c :: z -> o = len a -> wr m o v = Ok (a ++ v :: z).
Proof. intros; subst. apply wr_at. Qed.

(** ** Trailing spaces *)
Definition strip (x : bytes) : bytes := rev (drop_while (fun c => c =? 32) (rev x)).
Lemma strip_snoc : forall x c, strip (x ++ [c]) = if c =? 32 then strip x else x ++ [c].
Proof. intros. unfold strip. rewrite rev_app_distr. cbn [rev app drop_while]. destruct (c =? 32); [reflexivity|]. cbn. now rewrite rev_involutive. Qed.
Lemma strip_pre : forall x, exists y, x = strip x ++ y /\ Forall (fun c => c = 32) y.
Proof.
  induction x as [|c x IH] using rev_ind; [exists []; split; [reflexivity|constructor]|]. rewrite strip_snoc. destruct (Z.eqb_spec c 32) as [->|N].
  - destruct IH as (y & E & F). exists (y ++ [32]). split; [rewrite app_assoc, <- E; reflexivity|]. apply Forall_app. split; [exact F|now constructor].
  - exists []. split; [now rewrite app_nil_r|constructor].
Qed.
Lemma strip_run : forall x a c0 z fuel, c0 <> 32 -> (length x < fuel)%nat ->
  strip_spaces fuel (a ++ c0 :: x ++ z) (len a + 1) (len x) = Ok (a ++ c0 :: strip x ++ repeat 0 (length x - length (strip x)) ++ z, len (strip x)).
Proof.
  induction x as [|c x IH] using rev_ind; intros a c0 z fuel N L; destruct fuel as [|fuel]; try (cbn in L; lia).
  - cbn [strip_spaces]. change (len (@nil Z)) with 0. rewrite (rd_at _ a c0 z); [|reflexivity|lia]. cbn [bind]. unfold SP. replace (c0 =? 32) with false by lia. reflexivity.
  - rewrite app_length in L. cbn [length] in L. cbn [strip_spaces]. rewrite len_app. change (len [c]) with 1.
    assert (E : a ++ c0 :: (x ++ [c]) ++ z = (a ++ c0 :: x) ++ c :: z) by (rewrite <- !app_assoc; reflexivity).
    assert (Lo : len a + 1 + (len x + 1) - 1 = len (a ++ c0 :: x)) by (rewrite len_app, len_cons; lia).
    rewrite E, Lo, (rd_at _ (a ++ c0 :: x) c z) by reflexivity. cbn [bind]. rewrite strip_snoc. unfold SP. destruct (c =? 32).
    + rewrite wr_at. cbn [bind]. replace (len x + 1 - 1) with (len x) by lia.
      replace ((a ++ c0 :: x) ++ 0 :: z) with (a ++ c0 :: x ++ (0 :: z)) by (rewrite <- app_assoc; reflexivity).
      rewrite IH by (auto; lia). do 3 f_equal. f_equal. f_equal.
      destruct (strip_pre x) as (y & Ey & _). assert (Ls : (length (strip x) <= length x)%nat) by (rewrite Ey at 2; rewrite app_length; lia).
      rewrite app_length. cbn [length]. replace (length x + 1 - length (strip x))%nat with (length x - length (strip x) + 1)%nat by lia.
      rewrite repeat_app, <- app_assoc. reflexivity.
    + rewrite Nat.sub_diag. cbn [repeat app]. rewrite len_app. change (len [c]) with 1. rewrite <- !app_assoc. reflexivity.
Qed.

(** ** What sanitize_boundary makes of the text behind "boundary=" *)
Definition unquote (a : bytes) : bytes :=
  match a with
  | c :: t => if (c =? 34) && (last a 0 =? 34) then removelast t else a
  | [] => []
  end.
Definition trim (x : bytes) : bytes := strip (take_while (fun c => negb (c =? 59)) (firstn 72 x)).
Definition san (x : bytes) : bytes := unquote (trim x).

Lemma strcspn_semicolon : forall t, est_strcspn t [59] = len (take_while (fun c => negb (c =? 59)) t).
Proof. intro t. unfold est_strcspn. f_equal. induction t as [|c t IH]; [reflexivity|]. cbn [take_while]. cbn [memb existsb]. rewrite orb_false_r. destruct (c =? 59); cbn [negb length]; [reflexivity|]. now f_equal. Qed.
Lemma take_semi : forall t, let A := take_while (fun c => negb (c =? 59)) t in
  (A = t /\ ~ In 59 t) \/ (exists B, t = A ++ 59 :: B /\ ~ In 59 A).
Proof.
  induction t as [|c t IH]; cbn [take_while]; [left; split; [reflexivity|intros []]|]. destruct (Z.eqb_spec c 59) as [->|N]; cbn [negb].
  - right. exists t. split; [reflexivity|intros []].
  - destruct IH as [[E I]|(B & E & I)].
    + left. rewrite E. split; [reflexivity|]. cbn. intuition.
    + right. exists B. split; [cbn [app]; congruence|]. cbn. intuition.
Qed.
Lemma strip_no : forall x c, ~ In c x -> ~ In c (strip x).
Proof. intros x c N I. destruct (strip_pre x) as (y & E & _). apply N. rewrite E. apply in_or_app. now left. Qed.
Lemma unquote_cases : forall a, a <> [] -> (unquote a = a /\ (hd 0 a <> 34 \/ last a 0 <> 34)) \/ (a = [34] /\ unquote a = []) \/ (exists u, a = 34 :: u ++ [34] /\ unquote a = u).
Proof.
  intros [|c t] N; [contradiction|]. clear N. unfold unquote. destruct (Z.eqb_spec c 34) as [->|N].
  - cbn [andb]. destruct (Z.eqb_spec (last (34 :: t) 0) 34) as [E|E].
    + right. destruct t as [|x t]; [left; auto|]. right. exists (removelast (x :: t)). split; [|reflexivity].
      assert (L : last (x :: t) 0 = 34) by exact E. rewrite (app_removelast_last 0 (l := x :: t)) at 1 by discriminate. now rewrite L.
    + left. split; [reflexivity|]. now right.
  - left. split; [reflexivity|]. now left.
Qed.

Lemma sanitize_run : forall x p0 post, no_nul x -> let pre := p0 ++ [61] in
  exists m' k, sanitize_boundary (pre ++ x ++ 0 :: post) (len pre) (Z.min (len x) 72) = Ok (m', k)
  /\ ((san x = [] /\ k <= 0) \/ (san x <> [] /\ k = len (san x)
      /\ (len (san x) <= 70 -> exists t, m' = pre ++ san x ++ t ++ 0 :: post /\ len (san x ++ t) = len x /\ hd 0 t = 0))).
Proof.
  intros x p0 post Nx pre. set (b := len pre). set (win := firstn 72 x). assert (Ex : x = win ++ skipn 72 x) by (symmetry; apply firstn_skipn).
  assert (Lw : Z.min (len x) 72 = len win) by (unfold win; rewrite len_firstn; lia).
  assert (Lb : b = len p0 + 1) by (unfold b, pre; rewrite len_app; reflexivity).
  unfold sanitize_boundary. rewrite Lw. rewrite (sub_mid' _ pre win (skipn 72 x ++ 0 :: post)); [|rewrite Ex at 1; rewrite <- app_assoc; reflexivity|reflexivity|reflexivity].
  cbn [bind]. rewrite strcspn_semicolon. set (A := take_while (fun c => negb (c =? 59)) win).
  (* the first semicolon *)
  assert (S1 : exists T, (if len A <? len win then m' <- wr (pre ++ x ++ 0 :: post) (b + len A) 0 ;; @Ok (bytes * Z) (@pair bytes Z m' (len A)) else @Ok (bytes * Z) (@pair bytes Z (pre ++ x ++ 0 :: post) (len win))) = @Ok (bytes * Z) (@pair bytes Z (pre ++ A ++ T ++ 0 :: post) (len A))
    /\ len A + len T = len x /\ (hd 0 T = 0 \/ len A = 72) /\ ~ In 59 A).
  { destruct (take_semi win) as [[E I]|(B & E & I)]; fold A in E.
    - rewrite <- E in I. fold A in I. replace (len A <? len win) with false by (rewrite E; lia). exists (skipn 72 x). split; [|split; [|split]].
      + rewrite E. rewrite Ex at 1. rewrite <- app_assoc. reflexivity.
      + rewrite E. rewrite Ex at 2. rewrite len_app. reflexivity.
      + rewrite E. destruct (skipn 72 x) as [|y t] eqn:K; [now left|]. right. unfold win. rewrite len_firstn. assert (len (skipn 72 x) > 0) by (rewrite K, len_cons; pose proof (len_nonneg _ t); lia).
        rewrite len_skipn in H. lia.
      + exact I.
    - fold A in I. assert (Lwin : len win = len A + 1 + len B) by (rewrite E, len_app, len_cons; lia). replace (len A <? len win) with true by (pose proof (len_nonneg _ B); lia).
      exists (0 :: B ++ skipn 72 x). rewrite (wr_at' _ (pre ++ A) 59 (B ++ skipn 72 x ++ 0 :: post)).
      + cbn [bind]. split; [do 2 f_equal; rewrite <- !app_assoc; cbn [app]; rewrite <- !app_assoc; reflexivity|]. split; [|split; [left; reflexivity|exact I]].
        rewrite Ex at 2. rewrite E. rewrite !len_app, !len_cons, !len_app. lia.
      + rewrite Ex at 1. rewrite E at 1. rewrite <- !app_assoc. cbn [app]. rewrite <- ?app_assoc. reflexivity.
      + rewrite len_app. reflexivity. }
  destruct S1 as (T & -> & LT & HT & NA). cbn [bind]. assert (Tr : trim x = strip A) by reflexivity. unfold san. rewrite Tr.
  destruct (Z.ltb_spec (len A) 1) as [LA|LA].
  { assert (A = []) as -> by (apply len_0_nil; pose proof (len_nonneg _ A); lia). eexists _, _. split; [reflexivity|]. left. split; [reflexivity|]. cbn. lia. }
  (* spaces *)
  assert (S2 : strip_spaces (S (Z.to_nat (len A))) (pre ++ A ++ T ++ 0 :: post) b (len A) = Ok (pre ++ strip A ++ (repeat 0 (length A - length (strip A)) ++ T) ++ 0 :: post, len (strip A))).
  { unfold pre. rewrite <- !app_assoc. cbn [app]. rewrite Lb. rewrite strip_run; [reflexivity|lia|unfold len; lia]. }
  rewrite S2. cbn [bind]. clear S2. set (A2 := strip A) in *. set (T2 := repeat 0 (length A - length A2) ++ T).
  assert (LT2 : len A2 + len T2 = len x).
  { unfold T2. rewrite len_app, len_repeat. destruct (strip_pre A) as (y & Ey & _). fold A2 in Ey. assert (length A2 <= length A)%nat by (rewrite Ey; rewrite app_length; lia). unfold len in *. lia. }
  assert (HT2 : hd 0 T2 = 0 \/ len A2 = 72).
  { unfold T2. destruct (Nat.eq_dec (length A) (length A2)) as [Q|Q].
    - rewrite Q, Nat.sub_diag. cbn [repeat app]. destruct HT as [HT|HT]; [now left|]. right. unfold len in *. lia.
    - left. destruct (strip_pre A) as (y & Ey & _). fold A2 in Ey. assert (length A2 <= length A)%nat by (rewrite Ey; rewrite app_length; lia).
      destruct (length A - length A2)%nat eqn:K; [lia|]. reflexivity. }
  assert (NA2 : ~ In 59 A2) by (now apply strip_no). clearbody T2 A2. clear A T LT HT NA LA Tr.
  destruct (Z.ltb_spec (len A2) 1) as [LA|LA].
  { assert (A2 = []) as -> by (apply len_0_nil; pose proof (len_nonneg _ A2); lia). eexists _, _. split; [reflexivity|]. left. split; [reflexivity|]. cbn. lia. }
  assert (NN : A2 <> []) by (intros ->; cbn in LA; lia).
  (* quotes *)
  assert (C0 : rd (pre ++ A2 ++ T2 ++ 0 :: post) b = Ok (hd 0 A2)) by (destruct A2 as [|c t]; [contradiction|]; cbn [app hd]; eapply rd_at; reflexivity).
  assert (Lst : forall pr (V W : bytes), V <> [] -> rd (pr ++ V ++ W) (len pr + len V - 1) = Ok (last V 0)).
  { intros pr V W NV. rewrite (app_removelast_last 0 NV) at 1. rewrite <- app_assoc. rewrite app_assoc. cbn [app]. eapply rd_at; [reflexivity|].
    rewrite (app_removelast_last 0 NV) at 1. rewrite !len_app. change (len [last V 0]) with 1. lia. }
  rewrite C0. cbn [bind]. rewrite (Lst pre A2) by exact NN. cbn [bind].
  destruct (unquote_cases A2 NN) as [(Eu & Cu)|[(Ea & Eu)|(u & Ea & Eu)]].
  - replace ((hd 0 A2 =? 34) && (last A2 0 =? 34)) with false by lia. cbn [bind]. replace (len A2 <? 1) with false by lia.
    rewrite (Lst pre A2) by exact NN. cbn [bind].
    assert (Nl : last A2 0 <> 59) by (intro Q; apply NA2; rewrite <- Q; destruct A2 as [|c t]; [contradiction|]; rewrite (app_removelast_last 0 NN) at 2; apply in_or_app; right; now left).
    replace (last A2 0 =? 59) with false by lia. eexists _, _. split; [reflexivity|]. right. rewrite Eu. split; [exact NN|]. split; [reflexivity|].
    intro L7. exists T2. split; [reflexivity|]. split; [rewrite len_app; exact LT2|]. destruct HT2 as [HT2|HT2]; [exact HT2|lia].
  - subst A2. change ((hd 0 [34] =? 34) && (last [34] 0 =? 34)) with true. cbv iota. change (len [34]) with 1 in *. cbn [app].
    assert (Mv : move_in (pre ++ 34 :: T2 ++ 0 :: post) b (b + 1) (1 - 1) = Ok (pre ++ 34 :: T2 ++ 0 :: post)).
    { unfold move_in. rewrite len_app, len_cons. pose proof (len_nonneg _ pre). pose proof (len_nonneg _ (T2 ++ 0 :: post)). fold b. replace (_ && _) with true by lia.
      change (1 - 1) with 0. rewrite Z.add_0_r. cbn [firstn app]. f_equal. apply firstn_skipn. }
    rewrite Mv. cbn [bind]. rewrite (wr_at' _ p0 61 (34 :: T2 ++ 0 :: post)); [|unfold pre; rewrite <- app_assoc; reflexivity|lia]. cbn [bind].
    change (1 - 2 <? 1) with true. cbv iota. eexists _, _. split; [reflexivity|]. left. split; [reflexivity|lia].
  - subst A2. replace ((hd 0 (34 :: u ++ [34]) =? 34) && (last (34 :: u ++ [34]) 0 =? 34)) with true.
    2: { cbn [hd]. change (34 :: u ++ [34]) with ((34 :: u) ++ [34]). rewrite last_last. reflexivity. }
    assert (Ll : len (34 :: u ++ [34]) = len u + 2) by (rewrite len_cons, len_app; change (len [34]) with 1; lia). rewrite Ll in *.
    assert (Mv : move_in (pre ++ (34 :: u ++ [34]) ++ T2 ++ 0 :: post) b (b + 1) (len u + 2 - 1) = Ok (pre ++ u ++ 34 :: 34 :: T2 ++ 0 :: post)).
    { unfold move_in. rewrite len_app. rewrite (len_app _ (34 :: u ++ [34])), Ll. pose proof (len_nonneg _ pre). pose proof (len_nonneg _ u). pose proof (len_nonneg _ (T2 ++ 0 :: post)). fold b. replace (_ && _) with true by lia.
      assert (F1 : firstn (Z.to_nat b) (pre ++ (34 :: u ++ [34]) ++ T2 ++ 0 :: post) = pre) by (unfold b, len; rewrite Nat2Z.id, firstn_app, Nat.sub_diag, firstn_all; cbn; now rewrite app_nil_r).
      assert (F2 : skipn (Z.to_nat (b + 1)) (pre ++ (34 :: u ++ [34]) ++ T2 ++ 0 :: post) = (u ++ [34]) ++ T2 ++ 0 :: post).
      { replace (b + 1) with (len (pre ++ [34])) by (rewrite len_app; reflexivity). replace (pre ++ (34 :: u ++ [34]) ++ T2 ++ 0 :: post) with ((pre ++ [34]) ++ (u ++ [34]) ++ T2 ++ 0 :: post) by (rewrite <- (app_assoc pre); reflexivity). apply skipn_len_app. }
      assert (F3 : skipn (Z.to_nat (b + (len u + 2 - 1))) (pre ++ (34 :: u ++ [34]) ++ T2 ++ 0 :: post) = 34 :: T2 ++ 0 :: post).
      { replace (b + (len u + 2 - 1)) with (len (pre ++ 34 :: u)) by (rewrite len_app, len_cons; unfold b; lia). replace (pre ++ (34 :: u ++ [34]) ++ T2 ++ 0 :: post) with ((pre ++ 34 :: u) ++ 34 :: T2 ++ 0 :: post) by (rewrite <- !app_assoc; cbn [app]; rewrite <- !app_assoc; reflexivity). apply skipn_len_app. }
      rewrite F1, F2, F3. assert (F4 : firstn (Z.to_nat (len u + 2 - 1)) ((u ++ [34]) ++ T2 ++ 0 :: post) = u ++ [34]).
      { replace (len u + 2 - 1) with (len (u ++ [34])) by (rewrite len_app; change (len [34]) with 1; lia). unfold len. rewrite Nat2Z.id, firstn_app, Nat.sub_diag, firstn_all. cbn. now rewrite app_nil_r. }
      rewrite F4. f_equal. rewrite <- !app_assoc. reflexivity. }
    rewrite Mv. cbn [bind]. rewrite (wr_at' _ (pre ++ u) 34 (34 :: T2 ++ 0 :: post)); [|rewrite <- app_assoc; reflexivity|rewrite len_app; fold b; lia]. cbn [bind].
    replace (len u + 2 - 2) with (len u) by lia. rewrite Eu.
    destruct (Z.ltb_spec (len u) 1) as [Lu|Lu].
    + assert (u = []) as -> by (apply len_0_nil; pose proof (len_nonneg _ u); lia). eexists _, _. split; [reflexivity|]. left. split; [reflexivity|]. cbn. lia.
    + assert (Nu : u <> []) by (intros ->; cbn in Lu; lia). rewrite <- app_assoc. rewrite (Lst pre u) by exact Nu. cbn [bind].
      assert (Nl : last u 0 <> 59). { intro Q; apply NA2; right; apply in_or_app; left. rewrite <- Q. rewrite (app_removelast_last 0 Nu) at 2; apply in_or_app; right; now left. }
      replace (last u 0 =? 59) with false by lia. eexists _, _. split; [reflexivity|]. right. split; [exact Nu|]. split; [reflexivity|].
      intros _. exists (0 :: 34 :: T2). split; [reflexivity|]. split; [rewrite len_app, !len_cons; lia|reflexivity].
Qed.

(** ** One header value *)
Definition bval (v : bytes) : option (option bytes) :=
  match find_sub (str "multipart") v with
  | None => Some None
  | Some _ =>
    match find_sub (str "multipart/mixed") v, find_sub (str "boundary=") v with
    | Some _, Some f =>
      let t := san (skipn (Z.to_nat (f + 9)) v) in
      if (1 <=? len t) && (len t <=? 70) && forallb boundary_char t then Some (Some t) else None
    | _, _ => None
    end
  end.
Lemma find_sub_some : forall p s i, find_sub p s = Some i -> exists a b, s = a ++ p ++ b /\ i = len a.
Proof.
  induction s as [|c s IH]; intros i H; cbn [find_sub] in H.
  - destruct (prefixb p []) eqn:P; [|discriminate]. injection H as <-. apply prefixb_spec in P as (t & E). exists [], t. auto.
  - destruct (prefixb p (c :: s)) eqn:P.
    + injection H as <-. apply prefixb_spec in P as (t & E). exists [], t. auto.
    + destruct (find_sub p s) as [j|]; [|discriminate]. injection H as <-. destruct (IH j eq_refl) as (a & b & -> & ->). exists (c :: a), b. rewrite len_cons. split; [reflexivity|lia].
Qed.
Lemma find_sub_exact : forall p a b, (forall x y, a ++ p = x ++ p ++ y -> y = []) -> find_sub p (a ++ p ++ b) = Some (len a).
Proof.
  induction a as [|c a IH]; intros b U.
  - cbn [app]. assert (P : prefixb p (p ++ b) = true) by (apply prefixb_spec; eauto). destruct (p ++ b); cbn [find_sub]; now rewrite P.
  - cbn [app find_sub]. destruct (prefixb p (c :: a ++ p ++ b)) eqn:P.
    + exfalso. apply prefixb_spec in P as (t & E).
      assert (P2 : exists y, (c :: a) ++ p = p ++ y).
      { exists (firstn (length (c :: a)) t). assert (Q : firstn (length ((c :: a) ++ p)) ((c :: a) ++ p ++ b) = firstn (length (p ++ firstn (length (c :: a)) t)) (p ++ t)).
        { f_equal; [|exact E]. assert (L : length (c :: a ++ p ++ b) = length (p ++ t)) by now rewrite E. rewrite !app_length, firstn_length. cbn [length] in *. rewrite !app_length in L. lia. }
        rewrite app_assoc, firstn_app, Nat.sub_diag, firstn_all in Q. cbn [firstn] in Q. rewrite app_nil_r in Q. rewrite Q. rewrite !app_length, firstn_app.
        rewrite firstn_all2 by lia. f_equal. replace (length p + length (firstn (length (c :: a)) t) - length p)%nat with (length (firstn (length (c :: a)) t)) by lia.
        rewrite firstn_length, <- firstn_firstn, firstn_all. reflexivity. }
      destruct P2 as (y & Ey). specialize (U [] y Ey). subst y. apply (f_equal (@length Z)) in Ey. rewrite !app_length in Ey. cbn [length] in Ey. lia.
    + rewrite IH; [rewrite len_cons; f_equal; lia|]. intros x y E. apply (U (c :: x)). cbn [app]. now rewrite E.
Qed.

Lemma skip_nothing : forall pre x post, no_nul x -> ~ In 10 x -> skip (pre ++ x ++ 0 :: post) (len pre) [LF] = Ok (pre ++ x ++ 0 :: post, len pre, len pre + len x).
Proof.
  intros pre x post N I. destruct (skip_step pre x post [LF] [LF] N) as (pre1 & E & L & z & P & Zz).
  assert (C : cut [LF] [LF] x = (x, [])). { apply cut_all. apply Forall_forall. intros c Ic. apply memb_false. intros [<-|[]]. contradiction. }
  unfold skip. rewrite E. rewrite C in *. cbn [fst snd app] in *. change (len (@nil Z)) with 0 in L.
  assert (z = 0%nat). { rewrite P, !len_app, len_repeat in L. lia. } subst z. cbn [repeat] in P. rewrite app_nil_r in P. subst pre1. rewrite len_app, <- app_assoc. reflexivity.
Qed.
Lemma boundary_of_spec : forall p v q bnd, no_nul v -> ~ In 10 v ->
  match bval v with
  | None => boundary_of (p ++ v ++ 0 :: q) (len p) bnd = Ok None
  | Some None => boundary_of (p ++ v ++ 0 :: q) (len p) bnd = Ok (Some (p ++ v ++ 0 :: q, bnd))
  | Some (Some B) => exists a y, boundary_of (p ++ v ++ 0 :: q) (len p) bnd = Ok (Some (p ++ (a ++ B ++ y) ++ 0 :: q, Some (len p + len a)))
      /\ len (a ++ B ++ y) = len v /\ hd 0 y = 0 /\ no_nul B /\ 1 <= len B <= 70 /\ 9 <= len a /\ (exists x, v = a ++ x) /\ In 98 a
  end.
Proof.
  intros p v q bnd Nv Lf. unfold bval, boundary_of. rewrite cstr_at_app by exact Nv. cbn [bind].
  destruct (find_sub (str "multipart") v); [|reflexivity]. destruct (find_sub (str "multipart/mixed") v); [|reflexivity].
  destruct (find_sub (str "boundary=") v) as [f|] eqn:Ef; [|reflexivity].
  apply find_sub_some in Ef as (a & x & Ev & Lf'). assert (Lb : len (str "boundary=") = 9) by reflexivity.
  set (p0 := p ++ a ++ str "boundary"). set (pre := p0 ++ [61]).
  assert (Em : p ++ v ++ 0 :: q = pre ++ x ++ 0 :: q).
  { unfold pre, p0. rewrite Ev, <- !app_assoc. reflexivity. }
  assert (Lp : len p + f + 9 = len pre) by (unfold pre, p0; rewrite !len_app; change (len (str "boundary")) with 8; change (len [61]) with 1; lia).
  assert (Ex : skipn (Z.to_nat (f + 9)) v = x).
  { rewrite Ev. replace (f + 9) with (len (a ++ str "boundary=")) by (rewrite len_app; lia). rewrite app_assoc. apply skipn_len_app. }
  rewrite Ex. assert (Nx : no_nul x) by (rewrite Ev in Nv; apply no_nul_app in Nv as [_ Nv]; now apply no_nul_app in Nv as [_ Nv]).
  assert (Ix : ~ In 10 x) by (intro I; apply Lf; rewrite Ev; apply in_or_app; right; apply in_or_app; now right).
  rewrite Em, Lp. rewrite skip_nothing by assumption. cbn [bind]. rewrite cstr_at_app by exact Nx. cbn [bind].
  change (MAX_MULTI_BOUNDARY_LEN + 2) with 72. change MAX_MULTI_BOUNDARY_LEN with 70.
  destruct (sanitize_run x p0 q Nx) as (m' & k & E & Cs). fold pre in E, Cs. rewrite E. cbn [bind]. clear E.
  destruct Cs as [[E K]|(Ne & -> & H)].
  { rewrite E. change (1 <=? len []) with false. cbn [andb]. replace (70 <? k) with false by lia. replace (k <=? 0) with true by lia. reflexivity. }
  pose proof (len_nonneg _ (san x)) as Ls. assert (Ls1 : 1 <= len (san x)). { destruct (san x); [contradiction|]. rewrite len_cons. pose proof (len_nonneg _ b). lia. }
  replace (len (san x) <=? 0) with false by lia. replace (1 <=? len (san x)) with true by lia. cbn [andb].
  destruct (Z.ltb_spec 70 (len (san x))) as [G|G]; [replace (len (san x) <=? 70) with false by lia; reflexivity|]. replace (len (san x) <=? 70) with true by lia. cbn [andb].
  destruct (H G) as (t & Em' & Lt & Ht). clear H. rewrite (sub_mid' m' pre (san x) (t ++ 0 :: q)) by auto. cbn [bind].
  destruct (forallb boundary_char (san x)) eqn:Fb; [|reflexivity].
  exists (a ++ str "boundary="), t. split; [|split; [|split; [|split; [|split; [|split; [|split]]]]]].
  - replace (len p + len (a ++ str "boundary=")) with (len pre) by (rewrite len_app; lia). do 3 f_equal. rewrite Em'. unfold pre, p0. rewrite <- !app_assoc. reflexivity.
  - rewrite Ev, !len_app. rewrite len_app in Lt. lia.
  - exact Ht.
  - intro I. rewrite forallb_forall in Fb. specialize (Fb _ I). discriminate.
  - lia.
  - rewrite len_app. pose proof (len_nonneg _ a). lia.
  - exists x. rewrite Ev, <- app_assoc. reflexivity.
  - apply in_or_app. right. now left.
Qed.

(** ** The loop over the headers *)
Fixpoint kb (n : nat) (s : bytes) (n0 : Z) (e : option Z) (acc : option bytes) : option (option bytes) :=
  match n with
  | O => Some acc
  | S n' =>
    let '(name, r1) := cut [58] [32] s in
    let '(value, r2) := cut [13; 10] [13; 10] r1 in
    match bval value with
    | None => None
    | Some o =>
      let acc' := match o with Some B => Some B | None => acc end in
      match name with
      | [] => Some acc'
      | _ => if past e (n0 - len r2) then Some acc' else kb n' r2 n0 e acc'
      end
    end
  end.

Definition points (m : bytes) (b : option Z) (B : option bytes) : Prop :=
  match b, B with
  | None, None => True
  | Some o, Some t => has_text m o t /\ 1 <= len t <= 70
  | _, _ => False
  end.

Lemma text_at : forall p v q, has_text (p ++ v ++ 0 :: q) (len p) (text v).
Proof.
  intros p v q. destruct (text_rest v) as (t & E & H). assert (N : no_nul (text v)).
  { intro I. unfold text in I. pose proof (take_while_all (fun c => negb (c =? 0)) v) as F. rewrite Forall_forall in F. specialize (F _ I). cbn in F. discriminate. }
  destruct t as [|c t].
  - exists p, q. rewrite E at 1. rewrite app_nil_r. auto.
  - cbn in H. subst c. exists p, (t ++ 0 :: q). rewrite E at 1. rewrite <- !app_assoc. auto.
Qed.
Lemma cut_hd : forall d w s, match snd (cut d w s) with [] => True | c :: _ => memb c w = false end.
Proof.
  intros. unfold cut. cbn [snd]. destruct (drop_while (nd d) s) as [|x t]; [exact I|]. destruct (drop_while (fun c => memb c w) t) eqn:E; [exact I|].
  apply drop_while_hd in E. exact E.
Qed.

(** The same name, no other beginning (of nine octets) of the value, and the
    same value unless it has a boundary. *)
Definition alike (t h : bytes * bytes) : Prop := fst t = fst h /\ (forall p, len p <= 9 -> prefixb p (snd t) = true -> prefixb p (snd h) = true) /\ (snd t = snd h \/ In 98 (snd t)).
Lemma prefix_common : forall (p a u : bytes), len p <= len a -> (exists z, a ++ u = p ++ z) -> exists z, a = p ++ z.
Proof.
  induction p as [|c p IH]; intros a u L [z E]; [exists a; reflexivity|]. destruct a as [|d a]; [rewrite len_cons in L; change (len []) with 0 in L; pose proof (len_nonneg _ p); lia|].
  cbn in E. injection E as -> E. rewrite !len_cons in L. destruct (IH a u ltac:(lia) (ex_intro _ z E)) as [w ->]. exists w. reflexivity.
Qed.
Lemma text_prefix : forall p v, prefixb p (text v) = true -> prefixb p v = true.
Proof. intros p v H. apply prefixb_spec in H as [t E]. apply prefixb_spec. destruct (text_rest v) as (u & Eu & _). exists (t ++ u). rewrite Eu, E, <- app_assoc. reflexivity. Qed.

(** The cursor is behind a zero or at the end. *)
Definition closed (pre s : bytes) : Prop := s = [] \/ exists p, pre = p ++ [0].
Lemma closed_zeros : forall p z s, (z = 0%nat -> s = []) -> closed (p ++ repeat 0 z) s.
Proof. intros p [|z] s H; [left; auto|]. right. exists (p ++ repeat 0 z). change (repeat 0 (S z)) with (0 :: repeat 0 z). rewrite repeat_cons, app_assoc. reflexivity. Qed.

Lemma keygen_headers_spec : forall n e n0 pre s post b acc, no_nul s -> hd 0 s <> 10 -> len pre + len s = n0 -> closed pre s ->
  (forall s', len s' = len s -> points (pre ++ s' ++ 0 :: post) b acc) ->
  match kb n s n0 e acc with
  | None => keygen_headers n (pre ++ s ++ 0 :: post) (len pre) e b = Ok None
  | Some B => exists s' pre' hs ts b',
    keygen_headers n (pre ++ s ++ 0 :: post) (len pre) e b = Ok (Some (pre ++ s' ++ 0 :: post, len pre', hs, b'))
    /\ len s' = len s
    /\ pre ++ s' ++ 0 :: post = pre' ++ snd (chdrs n s n0 e) ++ 0 :: post
    /\ len pre' + len (snd (chdrs n s n0 e)) = n0
    /\ no_nul (snd (chdrs n s n0 e))
    /\ Forall2 (shows (pre ++ s' ++ 0 :: post) n0) hs ts
    /\ points (pre ++ s' ++ 0 :: post) b' B
    /\ closed pre' (snd (chdrs n s n0 e))
    /\ Forall2 alike ts (fst (chdrs n s n0 e))
  end.
Proof.
  induction n as [|n IH]; intros e n0 pre s post b acc Hs Hd Ln Hcl Hb.
  - cbn [kb chdrs keygen_headers fst snd]. exists s, pre, [], [], b. repeat split; auto.
  - cbn [keygen_headers chdrs kb]. rewrite cstr_at_app by exact Hs. cbn [bind].
    assert (Sp : est_strspn s [LF] = 0). { unfold est_strspn. destruct s as [|c s0]; [reflexivity|]. cbn [hd] in Hd. cbn [take_while memb existsb]. unfold LF. replace (c =? 10) with false by lia. reflexivity. }
    rewrite Sp, Z.add_0_r.
    destruct (skip_step pre s post [58] [SP] Hs) as (pre1 & E1 & L1 & z1 & P1 & Z1). rewrite E1. cbn [bind]. clear E1.
    destruct (cut_no_nul [58] [SP] s Hs) as [Hn1 Hr1]. change [32] with [SP].
    destruct (cut [58] [SP] s) as [name r1] eqn:C1. cbn [fst snd] in *.
    destruct (skip_step pre1 r1 post [CR; LF] [CR; LF] Hr1) as (pre2 & E2 & L2 & z2 & P2 & Z2). unfold skip. rewrite E2. cbn [bind]. clear E2.
    destruct (cut_no_nul [CR; LF] [CR; LF] r1 Hr1) as [Hn2 Hr2]. pose proof (cut_hd [CR; LF] [CR; LF] r1) as Hh. pose proof (cut_free [CR; LF] [CR; LF] r1 10 ltac:(cbn; auto)) as Hf.
    change [13; 10] with [CR; LF]. destruct (cut [CR; LF] [CR; LF] r1) as [value r2] eqn:C2. cbn [fst snd] in *.
    assert (Hd2 : hd 0 r2 <> 10) by (destruct r2 as [|c r2]; cbn [hd]; [lia|]; cbn in Hh; unfold CR, LF in Hh; lia).
    (* a memory in which the value may have been overwritten *)
    set (mem := fun v' r2' : bytes => pre ++ name ++ repeat 0 z1 ++ v' ++ repeat 0 z2 ++ r2' ++ 0 :: post).
    assert (M2 : pre2 ++ r2 ++ 0 :: post = mem value r2) by (unfold mem; subst pre2 pre1; rewrite <- !app_assoc; reflexivity).
    assert (Lp1 : len pre1 = len pre + len name + Z.of_nat z1) by (subst pre1; rewrite !len_app, len_repeat; lia).
    assert (Lp2 : len pre2 = len pre1 + len value + Z.of_nat z2) by (subst pre2; rewrite !len_app, len_repeat; lia).
    assert (Q : exists qq, forall v', mem v' r2 = pre1 ++ v' ++ 0 :: qq r2 /\ True) by (destruct z2 as [|z2]; [exists (fun _ => post)|exists (fun r => repeat 0 z2 ++ r ++ 0 :: post)]; intro v'; (split; [|exact I]);
      unfold mem; subst pre1; rewrite <- !app_assoc; [rewrite (Z2 eq_refl)|]; reflexivity).
    assert (Q2 : forall v' r2', len r2' = len r2 -> exists q, mem v' r2' = pre1 ++ v' ++ 0 :: q).
    { intros v' r2' Hl. destruct z2 as [|z2]; [exists post|exists (repeat 0 z2 ++ r2' ++ 0 :: post)]; unfold mem; subst pre1; rewrite <- !app_assoc; [|reflexivity].
      rewrite (Z2 eq_refl) in Hl. assert (r2' = []) as -> by (apply len_0_nil; exact Hl). reflexivity. }
    assert (Hall : forall v' r2', len v' = len value -> len r2' = len r2 -> exists x', mem v' r2' = pre ++ x' ++ 0 :: post /\ len x' = len s).
    { intros v' r2' Hv Hl. exists (name ++ repeat 0 z1 ++ v' ++ repeat 0 z2 ++ r2'). split; [unfold mem; now rewrite <- !app_assoc|]. rewrite !len_app, !len_repeat in *. lia. }
    assert (Hname : forall v' r2', len v' = len value -> len r2' = len r2 -> has_text (mem v' r2') (len pre) name).
    { intros v' r2' Hv Hl. unfold mem. destruct z1 as [|z1].
      - specialize (Z1 eq_refl). subst r1. unfold cut in C2. cbn in C2. inversion C2; subst value r2.
        assert (v' = []) as -> by (apply len_0_nil; exact Hv). assert (r2' = []) as -> by (apply len_0_nil; exact Hl).
        change (len (@nil Z)) with 0 in *. assert (z2 = 0%nat) as -> by lia. cbn. exists pre, post. auto.
      - exists pre, (repeat 0 z1 ++ v' ++ repeat 0 z2 ++ r2' ++ 0 :: post). auto. }
    (* what the value does *)
    assert (Bo : match bval value with
      | None => boundary_of (pre2 ++ r2 ++ 0 :: post) (len pre1) b = Ok None
      | Some o => exists v' b1, boundary_of (pre2 ++ r2 ++ 0 :: post) (len pre1) b = Ok (Some (mem v' r2, b1)) /\ len v' = len value
          /\ ((forall p, len p <= 9 -> prefixb p v' = true -> prefixb p value = true) /\ (text v' = value \/ In 98 (text v')))
          /\ forall r2', len r2' = len r2 -> points (mem v' r2') b1 (match o with Some B => Some B | None => acc end)
      end).
    { rewrite M2. destruct (Q2 value r2 eq_refl) as (q & Eq). rewrite Eq. pose proof (boundary_of_spec pre1 value q b Hn2 Hf) as Bs.
      destruct (bval value) as [[B|]|]; [|exists value, b; rewrite Bs, Eq; split; [reflexivity|]; split; [reflexivity|]; split; [split; [auto|left; now apply text_plain]|]|exact Bs].
      - destruct Bs as (a & y & Eb & Lb & Hy & NB & L70 & L9 & (x9 & E9) & I98). exists (a ++ B ++ y), (Some (len pre1 + len a)). split; [|split; [exact Lb|split; [|]]].
        + rewrite Eb. do 3 f_equal. destruct (Q2 (a ++ B ++ y) r2 eq_refl) as (q' & Eq'). rewrite Eq'. do 3 f_equal.
          destruct Q as (qq & HQ). destruct (HQ value) as [H1 _]. destruct (HQ (a ++ B ++ y)) as [H2 _]. rewrite H1 in Eq. rewrite H2 in Eq'.
          apply app_inv_head in Eq. apply app_inv_head in Eq. injection Eq as Eq. apply app_inv_head in Eq'. apply app_inv_head in Eq'. injection Eq' as Eq'. congruence.
        + split; [|right; rewrite text_app; [apply in_or_app; now left|rewrite E9 in Hn2; now apply no_nul_app in Hn2]]. intros p9 Lp9 Hp9. apply prefixb_spec in Hp9. destruct (prefix_common p9 a (B ++ y) ltac:(lia) Hp9) as [z9 Ez]. apply prefixb_spec. exists (z9 ++ x9). rewrite E9, Ez, <- app_assoc. reflexivity.
        + intros r2' Hl. destruct (Q2 (a ++ B ++ y) r2' Hl) as (q' & Eq'). cbn [points]. split; [|exact L70]. rewrite Eq'.
          destruct y as [|y0 y].
          * exists (pre1 ++ a), q'. rewrite app_nil_r, <- !app_assoc. repeat split; auto. now rewrite len_app.
          * cbn in Hy. subst y0. exists (pre1 ++ a), (y ++ 0 :: q'). rewrite <- !app_assoc. repeat split; auto. now rewrite len_app.
      - intros r2' Hl. destruct (Hall value r2' eq_refl Hl) as (x' & Ex & Lx). rewrite Ex. now apply Hb. }
    destruct (bval value) as [o|]; [|rewrite Bo; reflexivity].
    destruct Bo as (v' & b1 & Eb & Lv & (Pv & Pv2) & Pb). rewrite Eb. cbn [bind]. set (acc' := match o with Some B => Some B | None => acc end) in *.
    assert (Hrd : rd (mem v' r2) (len pre) = Ok (match name with [] => 0 | c :: _ => c end)).
    { destruct (Hname v' r2 Lv eq_refl) as (p & q & Em & _ & Ep). rewrite Em, Ep. destruct name; cbn [app]; apply rd_app. }
    rewrite Hrd. cbn [bind].
    set (pre2' := pre ++ name ++ repeat 0 z1 ++ v' ++ repeat 0 z2).
    assert (M2' : forall r2', mem v' r2' = pre2' ++ r2' ++ 0 :: post) by (intro; unfold mem, pre2'; now rewrite <- !app_assoc).
    assert (Lp2' : len pre2' = len pre2) by (unfold pre2'; rewrite !len_app, !len_repeat; lia).
    destruct (Hall v' r2 Lv eq_refl) as (x & Ex & Lx).
    pose proof (len_nonneg _ pre) as P0. pose proof (len_nonneg _ pre1) as P1'. pose proof (len_nonneg _ s) as P2'. pose proof (len_nonneg _ r1) as P3'.
    assert (Hval : forall r2', len r2' = len r2 -> has_text (mem v' r2') (len pre1) (text v')).
    { intros r2' Hl. destruct (Q2 v' r2' Hl) as (q & ->). apply text_at. }
    rewrite <- Lp2'.
    assert (Cl2 : closed pre2' r2) by (unfold pre2'; rewrite !app_assoc; now apply closed_zeros).
    destruct name as [|c name].
    + exists x, pre2', [], [], b1. cbn [fst snd]. rewrite <- Ex. repeat split; auto. lia.
    + assert (c <> 0) by now apply no_nul_cons in Hn1.
      replace (c =? 0) with false by lia. replace (n0 - len r2) with (len pre2') by lia.
      destruct (past e (len pre2')) eqn:Pa.
      * exists x, pre2', [(len pre, len pre1)], [(c :: name, text v')], b1. cbn [fst snd]. rewrite <- Ex. repeat split; auto; try lia.
        { repeat constructor; cbn [fst snd]; auto; lia. }
        { constructor; [|constructor]. split; cbn [fst snd]; [reflexivity|]. split; [|exact Pv2]. intros p9 L9 H9. apply Pv; [exact L9|now apply text_prefix]. }
      * rewrite M2'. specialize (IH e n0 pre2' r2 post b1 acc' Hr2 Hd2 ltac:(lia) Cl2).
        assert (Pb' : forall s', len s' = len r2 -> points (pre2' ++ s' ++ 0 :: post) b1 acc') by (intros s' Hl; rewrite <- M2'; now apply Pb).
        specialize (IH Pb'). destruct (kb n r2 n0 e acc') as [B|]; [|rewrite IH; reflexivity].
        destruct IH as (s' & pre' & hs & ts & b' & E3 & L3 & M3 & N3 & U3 & T3 & B3 & K3 & A3). rewrite E3. cbn [bind].
        destruct (Hall v' s' Lv L3) as (x' & Ex' & Lx'). destruct (chdrs n r2 n0 e) as [l r]. cbn [fst snd] in *. rewrite <- M2' in *. 
        exists x', pre', ((len pre, len pre1) :: hs), ((c :: name, text v') :: ts), b'. rewrite <- Ex'. repeat split; auto.
        { constructor; [|assumption]. unfold shows. cbn [fst snd]. repeat split; auto; lia. }
        { constructor; [|assumption]. split; cbn [fst snd]; [reflexivity|]. split; [|exact Pv2]. intros p9 L9 H9. apply Pv; [exact L9|now apply text_prefix]. }
Qed.
