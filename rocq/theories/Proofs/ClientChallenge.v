(** The client's reading of challenges. *)
From Coq Require Import String ZArith List Bool Lia ZifyBool ZifyNat.
From Verif Require Import Base Spec.Http Spec.Server Spec.Client Spec.Challenge Model.CLib Model.EstErr Model.HttpServer Model.Uri Model.AuthHdr Model.Server Model.ClientHttp
  Proofs.EstErr Proofs.HttpParse Proofs.ServerAuth Proofs.ServerReply Proofs.ClientHeaders Proofs.ClientHttp Proofs.ClientRender.
Import ListNotations.
Open Scope Z_scope.

(** ** Fields *)
Definition seps (g : bytes) : Prop := Forall (fun c => field_sep c = true) g.
Lemma ht_sep_seps : forall g c t, seps g -> field_sep c = false -> ht_sep (g ++ c :: t) = Ok (c :: t).
Proof.
  intros g c t F N. induction F as [|x g Hx F IH]; cbn [Datatypes.app ht_sep].
  - rewrite N, andb_false_r. reflexivity.
  - rewrite Hx. replace (x =? 0) with false; [exact IH|]. unfold field_sep, isspace in Hx. lia.
Qed.
Definition wordy (s : bytes) : Prop := s <> [] /\ Forall (fun c => field_sep c = false /\ c <> 0 /\ c <> 34 /\ c <> 60 /\ c <> 40) s.
Definition stop (c : Z) : Prop := c = 0 \/ field_sep c = true.
Definition after (c : Z) (t : bytes) : bytes := if c =? 0 then c :: t else t.
Lemma ht_word_wordy : forall s c t, Forall (fun c => field_sep c = false /\ c <> 0 /\ c <> 34 /\ c <> 60 /\ c <> 40) s -> stop c -> ht_word (s ++ c :: t) = Ok (s, c :: t).
Proof.
  intros s c t F St. induction F as [|x s (A & B & _) F IH]; cbn [Datatypes.app ht_word].
  - replace ((c =? 0) || field_sep c) with true; [reflexivity|]. destruct St as [->|H]; [reflexivity|]. rewrite H. symmetry. apply orb_true_r.
  - rewrite A. replace (x =? 0) with false by lia. cbn [orb]. rewrite IH. reflexivity.
Qed.
Lemma field_word : forall f g s c t, seps g -> wordy s -> stop c -> HTNextField (S f) (g ++ s ++ c :: t) = Ok (Some (s, s ++ c :: t), after c t).
Proof.
  intros f g s c t Hg [Ne F] St. destruct s as [|x s]; [contradiction|]. inversion F as [|? ? (A & B & D1 & D2 & D3) F']; subst.
  cbn [HTNextField]. cbn [Datatypes.app]. rewrite ht_sep_seps by assumption. cbn [bind].
  replace (x =? 0) with false by lia. replace (x =? 34) with false by lia. replace (x =? 60) with false by lia. replace (x =? 40) with false by lia.
  change (x :: s ++ c :: t) with ((x :: s) ++ c :: t). rewrite ht_word_wordy by assumption. cbn [bind ht_end]. reflexivity.
Qed.
Lemma ht_until_quote : forall v t, quotable v -> ht_until 34 (v ++ 34 :: t) = Ok (v, 34 :: t).
Proof.
  intros v t F. induction F as [|x v H F IH]; [reflexivity|]. cbn [Datatypes.app ht_until]. cbn [In] in H.
  replace ((x =? 0) || (x =? 34)) with false by lia. replace (x =? 92) with false by lia. rewrite IH. reflexivity.
Qed.
Lemma field_quoted : forall f g v t, seps g -> quotable v -> HTNextField (S f) (g ++ 34 :: v ++ 34 :: t) = Ok (Some (v, v ++ 34 :: t), t).
Proof.
  intros f g v t Hg Q. cbn [HTNextField]. rewrite ht_sep_seps by (auto; reflexivity). cbn [bind]. change (34 =? 0) with false. change (34 =? 34) with true. cbv iota.
  rewrite ht_until_quote by assumption. reflexivity.
Qed.
Lemma field_none : forall f g t, seps g -> HTNextField (S f) (g ++ 0 :: t) = Ok (None, 0 :: t).
Proof. intros f g t Hg. cbn [HTNextField]. rewrite ht_sep_seps by (auto; reflexivity). reflexivity. Qed.

Lemma seps_gap : forall g, spacing g -> seps g /\ g <> [].
Proof.
  intros g [N F]. split; [|assumption]. unfold seps. revert F. apply Forall_impl. intros c H. unfold field_sep, isspace. lia.
Qed.
Lemma seps_blanks : forall g, blanks g -> seps g.
Proof. intros g. apply Forall_impl. intros c H. unfold field_sep, isspace. lia. Qed.
Lemma seps_app : forall a b, seps a -> seps b -> seps (a ++ b).
Proof. intros. now apply Forall_app. Qed.
Lemma word_wordy : forall s, word s -> wordy s.
Proof.
  intros s [N F]. split; [assumption|]. revert F. apply Forall_impl. intros c [A B]. cbn in B. unfold field_sep, isspace. lia.
Qed.

(** ** Names *)
Lemma named_iff : forall n s p, n <> [] -> map tolower (str s) = str s -> fst p = n ->
  est_strcaseeq_s n (str s) = called s p.
Proof.
  intros n s [n' v] Ne L <-. unfold called. cbn [fst] in *. destruct n' as [|x n']; [contradiction|]. cbn [est_strcaseeq_s].
  apply eq_true_iff_eq. rewrite casecmp_case_eq. unfold case_eq. rewrite L, beq_eq. reflexivity.
Qed.
Lemma other_name : forall v s, v <> [] -> ~ case_eq v (str s) -> est_strcaseeq_s v (str s) = false.
Proof. intros v s Ne N. destruct v as [|x v]; [contradiction|]. cbn [est_strcaseeq_s]. apply not_true_is_false. intro H. apply N. now apply casecmp_case_eq. Qed.

Definition learn1 (p : bytes * pvalue) (c : cctx) : cctx :=
  let v := the_value (snd p) in
  if called "realm" p then set_realm (store 255 v) c
  else if called "nonce" p then set_nonce (store 64 v) c
  else if called "qop" p then c
  else if called "algorithm" p then c
  else if called "error" p then set_err (store 255 v) c
  else if called "error_description" p then set_desc (store 255 v) c
  else c.

(** One parameter.  [rest]: what follows it. *)
Lemma value_field : forall f b v w c r, seps b -> written v w -> (forall x, v = Bare x -> stop c) ->
  exists r' start, HTNextField (S f) (b ++ w ++ c :: r) = Ok (Some (the_value v, start), r')
  /\ len (c :: r) <= len start /\ (r' = c :: r \/ (field_sep c = true /\ r' = r)).
Proof.
  intros f b v w c r Hb W St. destruct v as [x|x]; cbn [written the_value] in *; destruct W as [Q ->].
  - exists (c :: r), (x ++ 34 :: c :: r). rewrite <- !app_assoc. cbn [Datatypes.app]. rewrite field_quoted by assumption. repeat split; auto.
    rewrite len_app, !len_cons. pose proof (len_nonneg _ x). lia.
  - specialize (St x eq_refl). exists (after c r), (x ++ c :: r). rewrite field_word by (auto; now apply word_wordy). repeat split; auto.
    + rewrite len_app. pose proof (len_nonneg _ x). lia.
    + unfold after. destruct St as [->|St]; [now left|]. destruct (Z.eqb_spec c 0) as [->|N]; [discriminate|]. right. auto.
Qed.

Definition R_ok (t : bytes) (R : cctx -> res (est_error * cctx)) : Prop :=
  forall f g c, seps g -> (length (g ++ t) < f)%nat -> auth_tokens f (g ++ t) c = R c.

(** What follows the parameters: separators [g] and then [t].  The field before
    may have taken the first separator. *)
Definition from (s r : bytes) : Prop := r = s \/ exists x, field_sep x = true /\ s = x :: r.
Lemma from_seps : forall g u r, seps g -> field_sep (hd 32 u) = false -> u <> [] -> from (g ++ u) r -> exists h, seps h /\ r = h ++ u.
Proof.
  intros g u r Hg Hu Nu [->|(x & Hx & E)]; [eauto|]. destruct g as [|y g]; cbn [Datatypes.app] in E.
  - subst u. cbn [hd] in Hu. congruence.
  - exists g. split; [now inversion Hg|congruence].
Qed.
Lemma known_named : forall s n v, In s ("algorithm"%string :: used_names) -> n <> [] -> est_strcaseeq_s n (str s) = called s (n, v).
Proof.
  intros s n v I Ne. apply named_iff; auto. cbn [In used_names] in I. repeat destruct I as [<-|I]; try reflexivity. contradiction.
Qed.
Lemma auth_tokens_params : forall R t g, R_ok t R -> 5 < len t -> field_sep (hd 32 t) = false -> seps g -> (g <> [] \/ hd 32 t = 0) ->
  forall s ps, parameters s ps -> understood ps -> forall f r c, from (s ++ g ++ t) r -> (length r < f)%nat ->
  auth_tokens f r c = R (fold_left (fun c p => learn1 p c) ps c).
Proof.
  intros R t g HR Lt Ht Hg St s ps P. assert (Nt : t <> []) by (intros ->; change (len (@nil Z)) with 0 in Lt; lia).
  induction P as [|gp n a b v w s ps Hgp Hn Ha Hb W P IH]; intros U f r c Fr Lf.
  { cbn [Datatypes.app fold_left] in *. destruct (from_seps _ _ _ Hg Ht Nt Fr) as (h & Hh & ->). apply HR; assumption. }
  inversion U as [|? ? U1 U']; subst. specialize (IH U'). destruct (seps_gap _ Hgp) as [Sg Ng]. clear Hgp.
  destruct (word_wordy _ Hn) as [Nn Fn].
  rewrite <- !app_assoc in Fr. apply from_seps in Fr; [|assumption| |].
  2: { destruct n; [contradiction|]. cbn. inversion Fn. tauto. }
  2: { destruct n; [contradiction|]. discriminate. }
  destruct Fr as (h & Hh & ->). destruct f as [|f]; [lia|].
  assert (L5 : 5 < len (s ++ g ++ t)) by (rewrite !len_app; pose proof (len_nonneg _ s); pose proof (len_nonneg _ g); lia).
  assert (Hx : stop (hd 32 (s ++ g ++ t))).
  { inversion P as [|g1 ? ? ? ? ? ? ? G1]; subst.
    - cbn [Datatypes.app]. destruct g as [|y g]; cbn [Datatypes.app].
      + destruct St as [St|St]; [contradiction|]. left. assumption.
      + right. now inversion Hg.
    - destruct (seps_gap _ G1) as [S1 N1]. destruct g1 as [|y g1]; [contradiction|]. right. now inversion S1. }
  destruct (s ++ g ++ t) as [|x q] eqn:E. { change (len (@nil Z)) with 0 in L5. lia. } cbn [hd] in Hx.
  (* the name *)
  assert (N1 : exists b', seps b' /\ next_field (h ++ n ++ a ++ str "=" ++ b ++ w ++ x :: q) = Ok (Some (n, n ++ a ++ str "=" ++ b ++ w ++ x :: q), b' ++ w ++ x :: q)
    /\ (length (b' ++ w ++ x :: q) <= length (a ++ str "=" ++ b ++ w ++ x :: q))%nat).
  { unfold next_field. destruct a as [|y a].
    - exists b. split; [now apply seps_blanks|]. split; [|rewrite !app_length; cbn [length]; lia].
      change ([] ++ str "=" ++ b ++ w ++ x :: q) with (61 :: b ++ w ++ x :: q). rewrite field_word; [reflexivity|assumption|now split|right; reflexivity].
    - exists (a ++ 61 :: b). inversion Ha as [|? ? Hy Ha']; subst. split; [apply seps_app; [now apply seps_blanks|constructor; [reflexivity|now apply seps_blanks]]|].
      split; [|change (str "=") with [61]; repeat (rewrite ?app_length; cbn [length Datatypes.app]); lia].
      cbn [Datatypes.app]. rewrite field_word; [|assumption|now split|right; unfold field_sep, isspace; lia].
      unfold after. replace (y =? 0) with false by lia. rewrite <- !app_assoc. reflexivity. }
  destruct N1 as (b' & Sb & N1 & Lb).
  destruct (value_field (length (b' ++ w ++ x :: q)) b' v w x q Sb W) as (r' & start & N2 & Ls & Fr').
  { intros; assumption. }
  assert (Fr : from (x :: q) r') by (destruct Fr' as [->|[A ->]]; [left; reflexivity|right; eauto]). clear Fr'.
  assert (Lr : (length r' < f)%nat).
  { assert (length r' <= length (x :: q))%nat by (destruct Fr as [->|(y & _ & Q)]; [lia|rewrite Q; cbn [length]; lia]).
    change (str "=") with [61] in Lf. rewrite !app_length in Lf. cbn [length] in *. lia. }
  cbn [auth_tokens]. rewrite N1. cbn [bind]. unfold next_field. rewrite N2. cbn [bind fst snd fold_left].
  pose proof (fun s v0 I => known_named s n v0 I Nn) as K. cbn [In used_names] in K.
  rewrite (K "realm"%string v), (K "nonce"%string v), (K "qop"%string v), (K "algorithm"%string v), (K "error"%string v), (K "error_description"%string v) by tauto.
  unfold learn1 at 2. cbn [snd].
  change (@pair (list Z) pvalue n v) with (@pair bytes pvalue n v).
  destruct (called "realm" (n, v)) eqn:E1; [now apply IH|].
  destruct (called "nonce" (n, v)) eqn:E2; [now apply IH|].
  destruct (called "qop" (n, v)) eqn:E3.
  { replace (match the_value v with [] => true | _ :: _ => 5 <=? len start end) with true by (destruct (the_value v); lia). now apply IH. }
  destruct (called "algorithm" (n, v)) eqn:E4.
  { assert (M : case_eq (the_value v) (str "md5")).
    { destruct U1 as [(m & I & C)|[[_ M]|[_ M]]]; [|exact M|inversion M; cbn [snd] in *; exfalso; intuition congruence].
      exfalso. unfold called in C, E4. apply beq_eq in C, E4. rewrite E4 in C. cbn [In used_names] in I. repeat destruct I as [<-|I]; try discriminate. contradiction. }
    replace (est_strcaseeq_s (the_value v) (str "md5")) with true; [now apply IH|]. symmetry. destruct (the_value v) as [|z l]; [reflexivity|]. cbn [est_strcaseeq_s]. now apply casecmp_case_eq. }
  destruct (called "error" (n, v)) eqn:E5; [now apply IH|].
  destruct (called "error_description" (n, v)) eqn:E6; [now apply IH|].
  (* a foreign parameter: its value is read as another name *)
  destruct U1 as [(m & I & C)|[[C _]|[Nv Ff]]].
  { exfalso. cbn [In used_names] in I. repeat destruct I as [<-|I]; try congruence; try contradiction. }
  { exfalso. congruence. }
  cbn [snd] in *. destruct f as [|f]; [lia|]. cbn [auth_tokens]. unfold next_field. rewrite N2. cbn [bind].
  assert (O : forall s0, In s0 ("algorithm"%string :: used_names) -> est_strcaseeq_s (the_value v) (str s0) = false).
  { intros s0 I. apply other_name; [assumption|]. rewrite Forall_forall in Ff. now apply Ff. }
  cbn [In used_names] in O. rewrite !O by tauto. apply IH; [assumption|].
  assert (Q : (length r' <= length (x :: q))%nat) by (destruct Fr as [->|(y & _ & Q)]; [lia|rewrite Q; cbn [length]; lia]).
  clear Lr IH O. destruct n; [contradiction|]. change (str "=") with [61] in Lf. rewrite !app_length in Lf. cbn [length] in *. lia.
Qed.

(** ** What is learnt *)
Lemma last_value_app : forall name ps p, last_value name (ps ++ [p]) = if called name p then Some (the_value (snd p)) else last_value name ps.
Proof. intros name ps p. unfold last_value. rewrite rev_app_distr. cbn [rev Datatypes.app filter]. destruct (called name p); reflexivity. Qed.
Lemma noted_app : forall max name ps p old, noted max name (ps ++ [p]) old = if called name p then firstn max (the_value (snd p)) else noted max name ps old.
Proof. intros. unfold noted. rewrite last_value_app. destruct (called name p); reflexivity. Qed.
Lemma called_one : forall a b p, called a p = true -> str a <> str b -> called b p = false.
Proof.
  intros a b p H N. apply not_true_is_false. intro Q. unfold called in *. apply beq_eq in H, Q. congruence.
Qed.
Definition learnt (ps : list (bytes * pvalue)) (c : cctx) : cctx :=
  {| k_mode := k_mode c; k_realm := noted 255 "realm" ps (k_realm c); k_nonce := noted 64 "nonce" ps (k_nonce c);
     k_err := noted 255 "error" ps (k_err c); k_desc := noted 255 "error_description" ps (k_desc c);
     k_delay := k_delay c; k_status := k_status c |}.
Lemma learn_all : forall ps c, fold_left (fun c p => learn1 p c) ps c = learnt ps c.
Proof.
  intro ps. induction ps as [|p ps IH] using rev_ind; intro c; [destruct c; reflexivity|].
  rewrite fold_left_app. cbn [fold_left]. rewrite IH. unfold learnt. rewrite !noted_app. unfold learn1, store.
  change (Z.to_nat 255) with 255%nat. change (Z.to_nat 64) with 64%nat.
  destruct (called "realm" p) eqn:E1.
  { rewrite (called_one _ "nonce" _ E1), (called_one _ "error" _ E1), (called_one _ "error_description" _ E1) by discriminate. reflexivity. }
  destruct (called "nonce" p) eqn:E2.
  { rewrite (called_one _ "error" _ E2), (called_one _ "error_description" _ E2) by discriminate. reflexivity. }
  destruct (called "qop" p) eqn:E3.
  { rewrite (called_one _ "error" _ E3), (called_one _ "error_description" _ E3) by discriminate. reflexivity. }
  destruct (called "algorithm" p) eqn:E4.
  { rewrite (called_one _ "error" _ E4), (called_one _ "error_description" _ E4) by discriminate. reflexivity. }
  destruct (called "error" p) eqn:E5.
  { rewrite (called_one _ "error_description" _ E5) by discriminate. reflexivity. }
  destruct (called "error_description" p); reflexivity.
Qed.

(** ** The ends *)
Lemma R_end : forall q, R_ok (0 :: q) (fun c => Ok (EST_ERR_NONE, c)).
Proof.
  intros q f g c Hg L. destruct f as [|f]; [lia|]. cbn [auth_tokens]. unfold next_field. rewrite field_none by assumption. reflexivity.
Qed.
(** A wrong algorithm, whatever follows. *)
Lemma R_algorithm : forall n a b v w x q, word n -> blanks a -> blanks b -> written v w -> called "algorithm" (n, v) = true -> the_value v <> [] ->
  ~ case_eq (the_value v) (str "md5") -> (forall y, v = Bare y -> stop x) ->
  R_ok (n ++ a ++ str "=" ++ b ++ w ++ x :: q) (fun c => Ok (EST_ERR_INVALID_TOKEN, set_nonce [] c)).
Proof.
  intros n a b v w x q Hn Ha Hb W C Nv M Sx f g c Hg L. destruct f as [|f]; [lia|]. destruct (word_wordy _ Hn) as [Nn Fn].
  assert (N1 : exists b', seps b' /\ next_field (g ++ n ++ a ++ str "=" ++ b ++ w ++ x :: q) = Ok (Some (n, n ++ a ++ str "=" ++ b ++ w ++ x :: q), b' ++ w ++ x :: q)).
  { unfold next_field. destruct a as [|y a].
    - exists b. split; [now apply seps_blanks|].
      change ([] ++ str "=" ++ b ++ w ++ x :: q) with (61 :: b ++ w ++ x :: q). rewrite field_word; [reflexivity|assumption|now split|right; reflexivity].
    - exists (a ++ 61 :: b). inversion Ha as [|? ? Hy Ha']; subst. split; [apply seps_app; [now apply seps_blanks|constructor; [reflexivity|now apply seps_blanks]]|].
      cbn [Datatypes.app]. rewrite field_word; [|assumption|now split|right; unfold field_sep, isspace; lia].
      unfold after. replace (y =? 0) with false by lia. rewrite <- !app_assoc. reflexivity. }
  destruct N1 as (b' & Sb & N1). destruct (value_field (length (b' ++ w ++ x :: q)) b' v w x q Sb W Sx) as (r' & start & N2 & _).
  cbn [auth_tokens]. rewrite N1. cbn [bind]. unfold next_field. rewrite N2. cbn [bind fst].
  pose proof (fun s v0 I => known_named s n v0 I Nn) as K. cbn [In used_names] in K.
  rewrite (K "realm"%string v), (K "nonce"%string v), (K "qop"%string v), (K "algorithm"%string v) by tauto.
  change (@pair (list Z) pvalue n v) with (@pair bytes pvalue n v).
  rewrite (called_one _ "realm" _ C), (called_one _ "nonce" _ C), (called_one _ "qop" _ C), C by discriminate. rewrite other_name by assumption. reflexivity.
Qed.
(** A name without a value at the end. *)
Lemma R_short : forall n b q, word n -> seps b -> (exists s, In s used_names /\ case_eq n (str s)) ->
  R_ok (n ++ b ++ 0 :: q) (fun c => Ok (EST_ERR_INVALID_TOKEN, set_nonce [] c)).
Proof.
  intros n b q Hn Sb (s & I & C) f g c Hg L. destruct f as [|f]; [lia|]. destruct (word_wordy _ Hn) as [Nn Fn].
  assert (N1 : exists b', seps b' /\ next_field (g ++ n ++ b ++ 0 :: q) = Ok (Some (n, n ++ b ++ 0 :: q), b' ++ 0 :: q)).
  { unfold next_field. destruct b as [|y b].
    - exists []. split; [constructor|]. cbn [Datatypes.app]. rewrite field_word; [reflexivity|assumption|now split|now left].
    - inversion Sb; subst. exists b. split; [assumption|]. cbn [Datatypes.app]. rewrite field_word; [|assumption|now split|now right].
      unfold after. destruct (Z.eqb_spec y 0) as [->|]; [discriminate|reflexivity]. }
  destruct N1 as (b' & Sb' & N1). cbn [auth_tokens]. rewrite N1. cbn [bind]. unfold next_field. rewrite field_none by assumption. cbn [bind].
  pose proof (fun s v0 I => known_named s n v0 I Nn) as K. cbn [In used_names] in K.
  pose (v := Bare []). rewrite (K "realm"%string v), (K "nonce"%string v), (K "qop"%string v), (K "algorithm"%string v), (K "error"%string v), (K "error_description"%string v) by tauto.
  assert (Cs : called s (n, v) = true).
  { unfold called. cbn [fst]. apply beq_eq. rewrite C. cbn [In used_names] in I. repeat destruct I as [<-|I]; try reflexivity. contradiction. }
  change (@pair (list Z) pvalue n v) with (@pair bytes pvalue n v).
  destruct (called "realm" (n, v)) eqn:E1; [reflexivity|]. destruct (called "nonce" (n, v)) eqn:E2; [reflexivity|]. destruct (called "qop" (n, v)) eqn:E3; [reflexivity|].
  cbn [In used_names] in I. repeat destruct I as [<-|I]; try congruence; try contradiction.
  - rewrite (called_one _ "algorithm" _ Cs) by discriminate. rewrite Cs. reflexivity.
  - rewrite (called_one _ "algorithm" _ Cs), (called_one _ "error" _ Cs) by discriminate. rewrite Cs. reflexivity.
Qed.

(** ** The header *)
Definition schemes : list (bytes * auth_mode) := [(str "Basic", AUTH_BASIC); (str "Digest", AUTH_DIGEST); (str "Bearer", AUTH_TOKEN)].
Lemma scheme_wordy : forall sc m, In (sc, m) schemes -> wordy sc.
Proof.
  intros sc m I. cbn [In schemes] in I. repeat destruct I as [I|I]; try contradiction; injection I as <- _; (split; [discriminate|]);
    repeat (constructor; [cbv; repeat split; discriminate|]); constructor.
Qed.
Lemma strncmp_prefix : forall p s, no_nul p -> strncmp_eq (length p) s p = prefixb p s.
Proof.
  induction p as [|x p IH]; intros s N; [reflexivity|]. destruct s as [|y s]; [reflexivity|]. cbn [length strncmp_eq prefixb].
  rewrite IH by (intro I; apply N; now right). rewrite Z.eqb_sym. reflexivity.
Qed.
Lemma response_401 : forall evs d op c hs body, arrives evs d -> response d 401 hs body -> clean_head d body -> plain_headers hs -> no_leading_newline body ->
  len d <= 1999955 -> mode_used (k_mode c) = false ->
  exists m1 os, Forall2 (shows m1 (len (text d))) os hs
  /\ (forall v, 0 <= v <= len (text d) -> exists a k, (44 < k)%nat /\ skipn (Z.to_nat v) m1 = a ++ repeat 0 k)
  /\ forall c', est_io_parse_http_auth_request m1 os (set_status 401 c) = Ok c' -> est_io_get_response evs op c = Ok (EST_ERR_AUTH_FAIL, Untouched, c').
Proof.
  intros evs raw op c hs body A R H0 Hp Hb L Mu.
  destruct (the_response raw 401 hs body R H0 Hp Hb) as [Ht Hbody].
  assert (L0 : 0 < len raw). { destruct R as (num & reason & _ & L3 & _ & _ & ->). rewrite !len_app. change (len (str "HTTP/1.1 ")) with 9. rewrite L3.
    repeat match goal with |- context [len ?x] => pose proof (len_nonneg _ x); generalize dependent (len x); intros end. lia. }
  assert (Rd : est_io_read_raw evs [] = (EST_ERR_NONE, raw)) by (apply read_arrives; [assumption|unfold EST_CA_MAX; lia]).
  unfold est_io_get_response. rewrite Rd. change (negb (err_eqb EST_ERR_NONE EST_ERR_NONE)) with false. cbv iota.
  replace (len raw <=? 0) with false by lia. unfold est_io_parse_response_status_code. rewrite first_status_zeros, (status_of raw 401 hs body R) by (cbn; auto 10).
  replace (Z.to_nat (EST_CA_MAX - len raw)) with (S (Z.to_nat (EST_CA_MAX - len raw - 1))) by (unfold EST_CA_MAX; lia).
  destruct (block_run raw (Z.to_nat (EST_CA_MAX - len raw - 1))) as (m1 & os & E & Lm & Lh & F & B & Sk & T). rewrite E. cbn [bind].
  fold (the_text raw) in F. rewrite Ht in F. exists m1, os. split; [exact F|]. split.
  { intros v Hv. destruct (T v Hv) as (a & ->). exists a, (S (Z.to_nat (EST_CA_MAX - len raw - 1))). split; [unfold EST_CA_MAX; lia|reflexivity]. }
  intros c' Q. unfold status_result. change (401 =? 200) with false. change (401 =? 204) with false. change (401 =? 404) with false. change (401 =? 202) with false.
  change (401 =? 400) with false. change (401 =? 401) with true. cbv iota. rewrite Q. cbn [bind k_mode set_status].
  destruct (k_mode c); try discriminate; reflexivity.
Qed.
Lemma request_text : forall m n0 os hs c, Forall2 (shows m n0) os hs ->
  Forall (fun h => forall t, fst h <> str "WWW-Authenticate" ++ t) hs -> est_io_parse_http_auth_request m os c = Ok (set_mode AUTH_FAIL c).
Proof.
  intros m n0 os hs c F N. induction F as [|[n v] [tn tv] os hs (Hn & Hv & Bn & Bv) F IH]; [reflexivity|]. inversion N as [|? ? N1 N']; subst.
  cbn [est_io_parse_http_auth_request fst snd] in *. rewrite (has_text_cstr _ _ _ Hn). cbn [bind].
  change 16%nat with (length (str "WWW-Authenticate")). rewrite strncmp_prefix by (intro I; cbv in I; repeat destruct I as [I|I]; congruence).
  replace (prefixb (str "WWW-Authenticate") tn) with false; [now apply IH|]. symmetry. apply not_true_is_false. intro P. apply prefixb_spec in P as (t & ->). now apply (N1 t).
Qed.
Lemma request_first : forall m n0 os hs c value, Forall2 (shows m n0) os hs -> first_starting hs (str "WWW-Authenticate") value ->
  exists v, has_text m v value /\ 0 <= v <= n0 /\
  est_io_parse_http_auth_request m os c =
    (let tokens mode :=
       ' (rv, c') <- est_io_parse_auth_tokens (skipn (Z.to_nat v) m) (set_mode mode c) ;;
       Ok (if EstErr.err_eqb rv EST_ERR_NONE then c' else set_mode AUTH_FAIL c') in
     if prefixb (str "Basic") value then tokens AUTH_BASIC else if prefixb (str "Digest") value then tokens AUTH_DIGEST
     else if prefixb (str "Bearer") value then tokens AUTH_TOKEN else Ok (set_mode AUTH_FAIL c)).
Proof.
  intros m n0 os hs c value F (h1 & n & t & h2 & -> & En & N). revert os F.
  induction h1 as [|[tn tv] h1 IH]; intros os F; cbn [Datatypes.app] in F; inversion F as [|[o v] ? os' ? (Hn & Hv & Bn & Bv) F']; subst; cbn [fst snd] in *.
  - exists v. split; [assumption|]. split; [assumption|]. cbn [est_io_parse_http_auth_request]. rewrite (has_text_cstr _ _ _ Hn). cbn [bind].
    change 16%nat with (length (str "WWW-Authenticate")). rewrite strncmp_prefix by (intro I; cbv in I; repeat destruct I as [I|I]; congruence).
    replace (prefixb (str "WWW-Authenticate") (str "WWW-Authenticate" ++ t)) with true by (symmetry; apply prefixb_spec; eauto).
    rewrite (has_text_cstr _ _ _ Hv). cbn [bind].
    change (strncmp_eq 5 value (str "Basic")) with (strncmp_eq (length (str "Basic")) value (str "Basic")).
    change (strncmp_eq 6 value (str "Digest")) with (strncmp_eq (length (str "Digest")) value (str "Digest")).
    change (strncmp_eq 6 value (str "Bearer")) with (strncmp_eq (length (str "Bearer")) value (str "Bearer")).
    rewrite !strncmp_prefix by (intro I; cbv in I; repeat destruct I as [I|I]; congruence). reflexivity.
  - inversion N as [|? ? N1 N']; subst. destruct (IH N' _ F') as (v' & E1 & E2 & E3). exists v'. split; [assumption|]. split; [assumption|].
    cbn [est_io_parse_http_auth_request]. rewrite (has_text_cstr _ _ _ Hn). cbn [bind].
    change 16%nat with (length (str "WWW-Authenticate")). rewrite strncmp_prefix by (intro I; cbv in I; repeat destruct I as [I|I]; congruence).
    replace (prefixb (str "WWW-Authenticate") tn) with false; [exact E3|]. symmetry. apply not_true_is_false. intro P. apply prefixb_spec in P as (x & ->). now apply (N1 x).
Qed.
Lemma schemes_prefix : forall (X : Type) (k : auth_mode -> X) (z : X) sc m s, In (sc, m) schemes ->
  (if prefixb (str "Basic") (sc ++ s) then k AUTH_BASIC else if prefixb (str "Digest") (sc ++ s) then k AUTH_DIGEST
   else if prefixb (str "Bearer") (sc ++ s) then k AUTH_TOKEN else z) = k m.
Proof. intros X k z sc m s I. cbn [In schemes] in I. repeat destruct I as [I|I]; try contradiction; injection I as <- <-; reflexivity. Qed.

Section R.
Variables (evs : list net) (d : bytes) (hs : list (bytes * bytes)) (body : bytes) (op : operation) (c : cctx).
Hypotheses (A : arrives evs d) (R : response d 401 hs body) (H0 : clean_head d body) (Hp : plain_headers hs) (Hb : no_leading_newline body)
  (L : len d <= 1999955) (Mu : mode_used (k_mode c) = false).

Lemma challenge_none : Forall (fun h => forall t, fst h <> str "WWW-Authenticate" ++ t) hs ->
  est_io_get_response evs op c = Ok (EST_ERR_AUTH_FAIL, Untouched, set_mode AUTH_FAIL (set_status 401 c)).
Proof.
  intro N. destruct (response_401 evs d op c hs body A R H0 Hp Hb L Mu) as (m1 & os & F & T & G). apply G. eapply request_text; [exact F|exact N].
Qed.
Lemma challenge_other : forall value, first_starting hs (str "WWW-Authenticate") value -> (forall sc m t, In (sc, m) schemes -> value <> sc ++ t) ->
  est_io_get_response evs op c = Ok (EST_ERR_AUTH_FAIL, Untouched, set_mode AUTH_FAIL (set_status 401 c)).
Proof.
  intros value Hf N. destruct (response_401 evs d op c hs body A R H0 Hp Hb L Mu) as (m1 & os & F & T & G). apply G.
  destruct (request_first m1 _ os hs (set_status 401 c) value F Hf) as (v & Hv & Bv & ->). cbv zeta.
  assert (P : forall sc m, In (sc, m) schemes -> prefixb sc value = false).
  { intros sc m I. apply not_true_is_false. intro P. apply prefixb_spec in P as (t & ->). now apply (N sc m t). }
  rewrite (P (str "Basic") AUTH_BASIC), (P (str "Digest") AUTH_DIGEST), (P (str "Bearer") AUTH_TOKEN) by (cbn; auto). reflexivity.
Qed.

(** [R']: what reading gives at the end, [g ++ t]. *)
Lemma challenge_run : forall sc m s ps g t R', In (sc, m) schemes -> first_starting hs (str "WWW-Authenticate") (sc ++ s ++ g ++ t) ->
  parameters s ps -> understood ps -> seps g -> (g <> [] \/ t = []) -> field_sep (hd 0 t) = false -> (forall q, 43 < len q -> R_ok (t ++ 0 :: q) R') ->
  est_io_get_response evs op c = (' (rv, c') <- R' (learnt ps (set_mode m (set_status 401 c))) ;;
    Ok (EST_ERR_AUTH_FAIL, Untouched, if EstErr.err_eqb rv EST_ERR_NONE then c' else set_mode AUTH_FAIL c')).
Proof.
  intros sc m s ps g t R' I Hf P U Hg Hgt Ht HR.
  destruct (response_401 evs d op c hs body A R H0 Hp Hb L Mu) as (m1 & os & F & T & G).
  destruct (request_first m1 _ os hs (set_status 401 c) _ F Hf) as (v & Hv & Bv & E). cbv zeta in E. rewrite (schemes_prefix _ _ _ sc m) in E by assumption.
  destruct (has_text_skip _ _ _ Hv) as (q & Eq & Nq & _). rewrite Eq in E.
  assert (Lq : 43 < len q).
  { destruct (T v Bv) as (a & k & Hk & Ek). rewrite Eq in Ek. set (val := sc ++ s ++ g ++ t) in *. clearbody val.
    assert (Q : (length a >= length val)%nat).
    { destruct (Nat.le_gt_cases (length val) (length a)) as [Q|Q]; [exact Q|exfalso].
      assert (X : nth (length a) (val ++ 0 :: q) 1 = nth (length a) (a ++ repeat 0 k) 1) by now rewrite Ek.
      rewrite app_nth1 in X by lia. rewrite app_nth2 in X by lia. rewrite Nat.sub_diag in X. destruct k as [|k]; [lia|]. cbn [repeat nth] in X.
      apply Nq. rewrite <- X. apply nth_In. exact Q. }
    assert (Y : length (val ++ 0 :: q) = length (a ++ repeat 0 k)) by now rewrite Ek.
    rewrite !app_length, repeat_length in Y. cbn [length] in Y. unfold len. lia. }
  assert (E2 : est_io_parse_auth_tokens ((sc ++ s ++ g ++ t) ++ 0 :: q) (set_mode m (set_status 401 c)) = R' (learnt ps (set_mode m (set_status 401 c)))).
  { unfold est_io_parse_auth_tokens. rewrite <- !app_assoc. set (z := s ++ g ++ t ++ 0 :: q).
    assert (Z0 : stop (hd 32 z) /\ z <> []).
    { unfold z. split.
      - inversion P as [|g1 ? ? ? ? ? ? ? G1]; subst.
        + destruct g as [|y g]; cbn [Datatypes.app].
          * destruct Hgt as [Hgt| ->]; [contradiction|]. now left.
          * right. now inversion Hg.
        + destruct (seps_gap _ G1) as [S1 N1]. destruct g1 as [|y g1]; [contradiction|]. right. now inversion S1.
      - intro Z0. apply app_eq_nil in Z0 as [_ Z0]. apply app_eq_nil in Z0 as [_ Z0]. apply app_eq_nil in Z0 as [_ Z0]. discriminate. }
    destruct Z0 as [St Nz]. destruct z as [|x r] eqn:Ez; [contradiction|]. cbn [hd] in St.
    unfold next_field. pose proof (field_word (length (sc ++ x :: r)) [] sc x r ltac:(constructor) (scheme_wordy _ _ I) St) as Fw. cbn [Datatypes.app] in Fw. rewrite Fw. cbn [bind].
    rewrite <- learn_all. apply (auth_tokens_params R' (t ++ 0 :: q) g) with (s := s); auto.
    - rewrite len_app, len_cons. pose proof (len_nonneg _ t). lia.
    - destruct t; [reflexivity|]. exact Ht.
    - destruct Hgt as [Hgt| ->]; [now left|now right].
    - fold z. rewrite Ez. unfold after. destruct (Z.eqb_spec x 0); [now left|]. right. destruct St as [St|St]; [contradiction|]. eauto. }
  rewrite E2 in E. destruct (R' _) as [[rv c']|] eqn:Er.
  - cbn [bind] in *. now apply G.
  - exfalso. destruct (auth_request_good m1 _ os hs (set_status 401 c) F) as (c1 & Q & _).
    + intros w Hw. left. destruct (T w Hw) as (a & k & Hk & ->). exists (a ++ repeat 0 (k - 5)). unfold zeros. rewrite <- app_assoc, <- repeat_app. do 2 f_equal. lia.
    + rewrite Q in E. discriminate.
Qed.

Lemma challenge_tokens : forall sc m x s, In (sc, m) schemes -> first_starting hs (str "WWW-Authenticate") (sc ++ x :: s) -> field_sep x = true ->
  exists q, 43 < len q /\ forall rv c', auth_tokens (S (length (s ++ 0 :: q))) (s ++ 0 :: q) (set_mode m (set_status 401 c)) = Ok (rv, c') ->
    est_io_get_response evs op c = Ok (EST_ERR_AUTH_FAIL, Untouched, if EstErr.err_eqb rv EST_ERR_NONE then c' else set_mode AUTH_FAIL c').
Proof.
  intros sc m x s I Hf Hx.
  destruct (response_401 evs d op c hs body A R H0 Hp Hb L Mu) as (m1 & os & F & T & G).
  destruct (request_first m1 _ os hs (set_status 401 c) _ F Hf) as (v & Hv & Bv & E). cbv zeta in E. rewrite (schemes_prefix _ _ _ sc m) in E by assumption.
  destruct (has_text_skip _ _ _ Hv) as (q & Eq & Nq & _). rewrite Eq in E. exists q. split.
  { destruct (T v Bv) as (a & k & Hk & Ek). rewrite Eq in Ek. set (val := sc ++ x :: s) in *. clearbody val.
    assert (Q : (length a >= length val)%nat).
    { destruct (Nat.le_gt_cases (length val) (length a)) as [Q|Q]; [exact Q|exfalso].
      assert (X : nth (length a) (val ++ 0 :: q) 1 = nth (length a) (a ++ repeat 0 k) 1) by now rewrite Ek.
      rewrite app_nth1 in X by lia. rewrite app_nth2 in X by lia. rewrite Nat.sub_diag in X. destruct k as [|k]; [lia|]. cbn [repeat nth] in X.
      apply Nq. rewrite <- X. apply nth_In. exact Q. }
    assert (Y : length (val ++ 0 :: q) = length (a ++ repeat 0 k)) by now rewrite Ek.
    rewrite !app_length, repeat_length in Y. cbn [length] in Y. unfold len. lia. }
  intros rv c' Q. apply G. rewrite E. unfold est_io_parse_auth_tokens, next_field. rewrite <- app_assoc. cbn [Datatypes.app].
  pose proof (field_word (length (sc ++ x :: s ++ 0 :: q)) [] sc x (s ++ 0 :: q) ltac:(constructor) (scheme_wordy _ _ I) (or_intror Hx)) as Fw. cbn [Datatypes.app] in Fw. rewrite Fw. cbn [bind].
  unfold after. replace (x =? 0) with false by (unfold field_sep, isspace in Hx; lia). rewrite Q. reflexivity.
Qed.
Theorem challenge_read : forall sc m s ps g, In (sc, m) schemes -> first_starting hs (str "WWW-Authenticate") (sc ++ s ++ g) ->
  parameters s ps -> understood ps -> seps g ->
  est_io_get_response evs op c = Ok (EST_ERR_AUTH_FAIL, Untouched, learnt ps (set_mode m (set_status 401 c))).
Proof.
  intros sc m s ps g I Hf P U Hg. rewrite (challenge_run sc m s ps g [] (fun c => Ok (EST_ERR_NONE, c))); auto.
  - rewrite app_nil_r. assumption.
  - intros q _. apply R_end.
Qed.
Theorem challenge_algorithm : forall sc m s ps g n a b v w t, In (sc, m) schemes ->
  first_starting hs (str "WWW-Authenticate") (sc ++ s ++ g ++ n ++ a ++ str "=" ++ b ++ w ++ t) ->
  parameters s ps -> understood ps -> spacing g -> word n -> blanks a -> blanks b -> written v w ->
  called "algorithm" (n, v) = true -> the_value v <> [] -> ~ case_eq (the_value v) (str "md5") ->
  (t = [] \/ (exists x t', t = x :: t' /\ field_sep x = true)) ->
  exists c', est_io_get_response evs op c = Ok (EST_ERR_AUTH_FAIL, Untouched, c') /\ k_mode c' = AUTH_FAIL /\ k_nonce c' = [].
Proof.
  intros sc m s ps g n a b v w t I Hf P U Hg Hn Ha Hbl W C Nv M Ht. destruct (seps_gap _ Hg) as [Sg Ng].
  eexists. split; [rewrite (challenge_run sc m s ps g (n ++ a ++ str "=" ++ b ++ w ++ t) (fun c => Ok (EST_ERR_INVALID_TOKEN, set_nonce [] c))); auto|].
  - reflexivity.
  - destruct (word_wordy _ Hn) as [Nn Fn]. destruct n; [contradiction|]. inversion Fn. cbn. tauto.
  - intros q _. rewrite <- !app_assoc. destruct Ht as [->|(x & t' & -> & Hx)]; cbn [Datatypes.app].
    + apply (R_algorithm n a b v w 0 q); auto. intros; now left.
    + apply (R_algorithm n a b v w x (t' ++ 0 :: q)); auto. intros; now right.
  - cbn. auto.
Qed.
Theorem challenge_short : forall sc m s ps g n b, In (sc, m) schemes ->
  first_starting hs (str "WWW-Authenticate") (sc ++ s ++ g ++ n ++ b) ->
  parameters s ps -> understood ps -> spacing g -> word n -> seps b -> (exists x, In x used_names /\ case_eq n (str x)) ->
  exists c', est_io_get_response evs op c = Ok (EST_ERR_AUTH_FAIL, Untouched, c') /\ k_mode c' = AUTH_FAIL /\ k_nonce c' = [].
Proof.
  intros sc m s ps g n b I Hf P U Hg Hn Sb C. destruct (seps_gap _ Hg) as [Sg Ng].
  eexists. split; [rewrite (challenge_run sc m s ps g (n ++ b) (fun c => Ok (EST_ERR_INVALID_TOKEN, set_nonce [] c))); auto|].
  - reflexivity.
  - destruct (word_wordy _ Hn) as [Nn Fn]. destruct n; [contradiction|]. inversion Fn. cbn. tauto.
  - intros q _. rewrite <- !app_assoc. now apply R_short.
  - cbn. auto.
Qed.
End R.

(** ** The server's challenge *)
Section E.
Context {cert csr key E : Type}.
Variable C : @config cert.
Variable A : @app cert key E.

Definition own_params (t : bytes) : list (bytes * pvalue) :=
  match c_auth_mode C with
  | AUTH_DIGEST => [(str "qop", Quoted (str "auth")); (str "realm", Quoted (c_realm C)); (str "nonce", Quoted t)]
  | _ => [(str "realm", Quoted (c_realm C))]
  end.
Definition own_text (t : bytes) : bytes :=
  match c_auth_mode C with
  | AUTH_DIGEST => str " qop=" ++ [34] ++ str "auth" ++ [34] ++ str ", realm=" ++ [34] ++ c_realm C ++ [34] ++ str ", nonce=" ++ [34] ++ t ++ [34]
  | _ => str " realm=" ++ [34] ++ c_realm C ++ [34]
  end.
Lemma word_lit : forall s, (match s with [] => false | _ => true end && forallb (fun c => (33 <=? c) && (c <? 127) && negb (existsb (Z.eqb c) (str "()<>@,;:\/[]?={}" ++ [34]))) s)%bool = true -> word s.
Proof.
  intros s H. apply andb_true_iff in H as [N F]. split; [intros ->; discriminate|]. apply Forall_forall. intros x I. rewrite forallb_forall in F. specialize (F x I).
  apply andb_true_iff in F as [F1 F2]. split; [lia|]. intro Q. apply negb_true_iff in F2. assert (existsb (Z.eqb x) (str "()<>@,;:\/[]?={}" ++ [34]) = true); [|congruence].
  apply existsb_exists. exists x. split; [assumption|apply Z.eqb_refl].
Qed.
Lemma quot_lit : forall s, forallb (fun c => negb (existsb (Z.eqb c) [0; 10; 13; 34; 92])) s = true -> quotable s.
Proof.
  intros s F. apply Forall_forall. intros x I. rewrite forallb_forall in F. specialize (F x I). apply negb_true_iff in F. intro Q.
  assert (existsb (Z.eqb x) [0; 10; 13; 34; 92] = true); [|congruence]. apply existsb_exists. exists x. split; [assumption|apply Z.eqb_refl].
Qed.
Lemma own_parameters : forall t, quotable (c_realm C) -> quotable t -> parameters (own_text t) (own_params t).
Proof.
  intros t Hr Ht. unfold own_text, own_params.
  assert (One : forall g n v s ps, spacing g -> word n -> quotable v -> parameters s ps -> parameters (g ++ n ++ [61] ++ [34] ++ v ++ [34] ++ s) ((n, Quoted v) :: ps)).
  { intros g n v s ps G N Q P. replace (g ++ n ++ [61] ++ [34] ++ v ++ [34] ++ s) with (g ++ n ++ [] ++ str "=" ++ [] ++ ([34] ++ v ++ [34]) ++ s).
    - apply one_parameter; auto; try constructor; auto.
    - cbn [Datatypes.app]. change (str "=") with [61]. rewrite <- !app_assoc. reflexivity. }
  assert (G1 : spacing (str " ")) by (split; [discriminate|constructor; [auto|constructor]]).
  assert (G2 : spacing (str ", ")) by (split; [discriminate|constructor; [auto|constructor; [auto|constructor]]]).
  assert (P0 := no_parameters). assert (Q0 : forall n v, word n -> quotable v -> parameters (str " " ++ n ++ [61] ++ [34] ++ v ++ [34] ++ []) [(n, Quoted v)]) by (intros; now apply One).
  destruct (c_auth_mode C); try (apply (Q0 (str "realm")); [now apply word_lit|assumption]).
  pose proof (One (str ", ") (str "nonce") t [] [] G2 ltac:(now apply word_lit) Ht P0) as P1.
  pose proof (One (str ", ") (str "realm") (c_realm C) _ _ G2 ltac:(now apply word_lit) Hr P1) as P2.
  pose proof (One (str " ") (str "qop") (str "auth") _ _ G1 ltac:(now apply word_lit) ltac:(now apply quot_lit) P2) as P3. exact P3.
Qed.
Lemma own_sent : forall s w r, Spec.Server.challenges C -> mg_send_authorization_request C A s = (w, r) ->
  exists sc, In (sc, c_auth_mode C) schemes /\
  sent w = str "HTTP/1.1 401 Unauthorized" ++ CRLF ++ concat (map render_header [(str "Content-Length", str "0"); (str "WWW-Authenticate", sc ++ own_text (a_time A (s_env s)))]) ++ CRLF.
Proof.
  intros s w r Hm H. unfold mg_send_authorization_request, Spec.Server.challenges in *.
  apply mbind_inv in H as [[H _]|(e1 & [] & s1 & e2 & H1 & H & ->)]; [discriminate|]. assert (Ev : s_env s1 = s_env s) by (inversion H1; reflexivity). assert (e1 = []) by (inversion H1; reflexivity). subst e1. clear H1.
  assert (G : forall v s2, mbind (mg_write A (str "HTTP/1.1 401 Unauthorized" ++ EOL ++ hdr (str "Content-Length") (str "0") ++ hdr (str "WWW-Authenticate") v ++ EOL)) (fun _ => ret tt) s2 = (e2, r) ->
    sent ([] ++ e2) = str "HTTP/1.1 401 Unauthorized" ++ CRLF ++ concat (map render_header [(str "Content-Length", str "0"); (str "WWW-Authenticate", v)]) ++ CRLF).
  { intros v s2 Hw. match type of Hw with mbind (mg_write A ?d) _ ?s1 = _ => destruct (ServerReply.write_run A d s1) as (ok & s3 & Q & _) end.
    apply mbind_inv in Hw as [[Hw _]|(e3 & ok' & s4 & e4 & H3 & Hw & ->)]; [rewrite Q in Hw; discriminate|].
    rewrite Q in H3. injection H3 as <- <- <-. inversion Hw; subst. cbn [Datatypes.app sent]. rewrite app_nil_r.
    unfold hdr, render_header, CRLF, EOL. cbn [map concat fst snd]. rewrite <- !app_assoc. reflexivity. }
  unfold own_text. destruct (c_auth_mode C) eqn:Em; try contradiction.
  - exists (str "Basic"). split; [cbn; auto|]. apply G in H. rewrite H. reflexivity.
  - exists (str "Digest"). split; [cbn; auto|].
    apply mbind_inv in H as [[H _]|(e3 & v & s4 & e4 & H3 & H & ->)]; [discriminate|]. inversion H3; subst. rewrite Ev in *. apply G in H. rewrite H. reflexivity.
  - exists (str "Bearer"). split; [cbn; auto|]. apply G in H. rewrite H. reflexivity.
Qed.

Theorem challenge_end_to_end : forall s w r evs op c, Spec.Server.challenges C -> mg_send_authorization_request C A s = (w, r) -> arrives evs (sent w) ->
  quotable (c_realm C) -> len (c_realm C) <= 255 -> quotable (a_time A (s_env s)) -> len (a_time A (s_env s)) <= 64 -> mode_used (k_mode c) = false ->
  exists c', est_io_get_response evs op c = Ok (EST_ERR_AUTH_FAIL, Untouched, c')
  /\ k_mode c' = c_auth_mode C /\ k_realm c' = c_realm C
  /\ k_nonce c' = match c_auth_mode C with AUTH_DIGEST => a_time A (s_env s) | _ => k_nonce c end.
Proof.
  intros s w r evs op c Hm H Ar Qr Lr Qt Lt Mu. destruct (own_sent s w r Hm H) as (sc & I & Sw).
  set (t := a_time A (s_env s)) in *. set (hs := [(str "Content-Length", str "0"); (str "WWW-Authenticate", sc ++ own_text t)]) in *.
  assert (Lit : forall l, forallb (fun c => negb (existsb (Z.eqb c) [0; 10; 13; 58])) l = true -> Forall (fun c => ~ In c [0; 10; 13; 58]) l).
  { intros l F. rewrite Forall_forall. rewrite forallb_forall in F. intros x Ix Q. specialize (F x Ix). cbn in Q, F. lia. }
  assert (Lit3 : forall l, forallb (fun c => negb (existsb (Z.eqb c) [0; 10; 13])) l = true -> Forall (fun c => ~ In c [0; 10; 13]) l).
  { intros l F. rewrite Forall_forall. rewrite forallb_forall in F. intros x Ix Q. specialize (F x Ix). cbn in Q, F. lia. }
  assert (Q3 : forall l, quotable l -> Forall (fun c => ~ In c [0; 10; 13]) l) by (intro l; apply Forall_impl; cbn; intros; lia).
  assert (V3 : Forall (fun c => ~ In c [0; 10; 13]) (sc ++ own_text t)).
  { apply Forall_app. split; [cbn [In schemes] in I; repeat destruct I as [I|I]; try contradiction; injection I as <- _; now apply Lit3|].
    unfold own_text. destruct (c_auth_mode C); repeat (apply Forall_app; split); first [now apply Lit3 | now apply Q3]. }
  assert (R : response (sent w) 401 hs []).
  { rewrite Sw. exists (str "401"), (str "Unauthorized"). split; [ServerReply.num|]. split; [reflexivity|]. split; [ServerReply.line|]. split.
    - unfold hs. constructor; [split; ServerReply.line|constructor; [split; [ServerReply.line|]|constructor]]. cbn [snd]. revert V3. apply Forall_impl. cbn. intros; lia.
    - rewrite app_nil_r, <- ?app_assoc. reflexivity. }
  assert (Nn : ~ In 0 (sent w)).
  { rewrite Sw. unfold hs, render_header. cbn [map concat fst snd]. intro J. rewrite !in_app_iff in J.
    assert (P : forall l, forallb (fun c => negb (c =? 0)) l = true -> ~ In 0 l) by (intros l Hf; now apply no_nul_lit).
    rewrite Forall_forall in V3. assert (P0 : ~ In 0 (sc ++ own_text t)) by (intro Q; apply (V3 _ Q); now left).
    repeat match goal with H : _ \/ _ |- _ => destruct H as [H|H] end; try contradiction; try (revert J; apply P; reflexivity); apply P0; rewrite in_app_iff; tauto. }
  assert (Len : len (sent w) <= 1999955).
  { rewrite Sw. unfold hs, render_header, CRLF. cbn [map concat fst snd]. rewrite !len_app.
    assert (len (own_text t) <= 400).
    { unfold own_text. destruct (c_auth_mode C); rewrite !len_app; repeat match goal with |- context [len (str ?x)] => let n := eval vm_compute in (len (str x)) in change (len (str x)) with n end; change (len [34]) with 1; lia. }
    assert (len sc <= 10) by (cbn [In schemes] in I; repeat destruct I as [I|I]; try contradiction; injection I as <- _; vm_compute; discriminate).
    repeat match goal with |- context [len (str ?x)] => let n := eval vm_compute in (len (str x)) in change (len (str x)) with n end. change (len [13; 10]) with 2. change (len (@nil Z)) with 0. lia. }
  exists (learnt (own_params t) (set_mode (c_auth_mode C) (set_status 401 c))). split.
  - refine (challenge_read evs (sent w) hs [] op c Ar R _ _ _ Len Mu sc (c_auth_mode C) (own_text t) (own_params t) [] I _ (own_parameters t Qr Qt) _ _).
    + exists (sent w). rewrite app_nil_r. auto.
    + split; [change (len hs) with 2; lia|]. unfold hs. constructor; [|constructor; [|constructor]].
      * split; [discriminate|]. split; [now apply Lit|]. split; [now apply Lit3|discriminate].
      * split; [discriminate|]. split; [now apply Lit|]. split; [exact V3|]. cbn [snd]. cbn [In schemes] in I. repeat destruct I as [I|I]; try contradiction; injection I as <- _; discriminate.
    + split; discriminate.
    + exists [(str "Content-Length", str "0")], (str "WWW-Authenticate"), [], []. rewrite !app_nil_r. split; [reflexivity|]. split; [reflexivity|]. constructor; [|constructor]. intros x Q. discriminate.
    + unfold own_params, understood. destruct (c_auth_mode C); repeat (apply Forall_cons;
        [left; first [exists "realm"%string; split; [now left|reflexivity] | exists "qop"%string; split; [right; right; now left|reflexivity] | exists "nonce"%string; split; [right; now left|reflexivity]]|]);
        apply Forall_nil.
    + constructor.
  - assert (F : forall n (l : bytes), len l <= Z.of_nat n -> firstn n l = l) by (intros n l Hl; apply firstn_all2; unfold len in Hl; lia).
    unfold own_params, Spec.Server.challenges in *. destruct (c_auth_mode C) eqn:Em; try contradiction; cbn [learnt k_mode k_realm k_nonce set_mode set_status noted last_value rev filter Datatypes.app].
    + split; [reflexivity|]. split; [|reflexivity]. apply F. lia.
    + split; [reflexivity|]. split; [apply F; lia|apply F; lia].
    + split; [reflexivity|]. split; [|reflexivity]. apply F. lia.
Qed.
End E.
