(** Proofs about the Authorization header. *)
From Coq Require Import String ZArith List Bool Lia ZifyBool ZifyNat.
From Verif Require Import Base Spec.Base64 Spec.Http Spec.Auth Model.CLib Model.HttpServer Model.Codec Model.AuthHdr.
From Verif Require Import Proofs.HttpParse Proofs.Codec Proofs.HttpRender.
Import ListNotations.
Open Scope Z_scope.

(** ** Escaped words *)

Definition qw := nd [34].

(** Text-level reading of the escape loop. *)
Fixpoint qloop (fuel : nat) (A R : bytes) : bytes * bytes :=
  match fuel with
  | O => (A, R)
  | S f => if last A 0 =? 92 then
             match R with
             | [] => (removelast A, [])
             | _ :: t => qloop f (removelast A ++ 34 :: take_while qw t) (drop_while qw t)
             end
           else (A, R)
  end.

Lemma drop_qw_head : forall t, drop_while qw t = [] \/ exists u, drop_while qw t = 34 :: u.
Proof.
  induction t as [|c t IH]; cbn [drop_while]; [now left|].
  replace (qw c) with (negb (c =? 34)) by (unfold qw, nd; cbn; lia).
  destruct (c =? 34) eqn:E; cbn [negb].
  - right. exists t. f_equal. lia.
  - exact IH.
Qed.

Lemma take_qw : forall t, Forall (fun c => c <> 34) (take_while qw t).
Proof.
  intros. pose proof (take_while_all qw t) as H. eapply Forall_impl; [|exact H].
  intros c Hc. unfold qw, nd in Hc. cbn in Hc. lia.
Qed.

Lemma q_split_chunk : forall C R, Forall (fun c => c <> 34) C ->
  (R = [] \/ exists u, R = 34 :: u) ->
  q_split (C ++ R) =
  if last C 0 =? 92 then
    match R with
    | [] => (removelast C, None)
    | _ :: t => (removelast C ++ 34 :: fst (q_split t), snd (q_split t))
    end
  else (C, match R with [] => None | _ :: t => Some t end).
Proof.
  induction C as [|c C IH]; intros R HC HR.
  - cbn [last app]. cbn. destruct HR as [->|[u ->]]; reflexivity.
  - inversion HC as [|? ? Hc HC']; subst.
    cbn [app q_split]. replace (c =? 34) with false by lia.
    destruct (c =? 92) eqn:E92.
    + assert (c = 92) by lia. subst c.
      destruct C as [|d C].
      * cbn [app]. destruct HR as [->|[u ->]]; reflexivity.
      * cbn [app]. inversion HC'; subst. replace (d =? 34) with false by lia.
        change (last (92 :: d :: C) 0) with (last (d :: C) 0).
        change (removelast (92 :: d :: C)) with (92 :: removelast (d :: C)).
        change (d :: C ++ R) with ((d :: C) ++ R). rewrite (IH R HC' HR).
        destruct (last (d :: C) 0 =? 92); [|reflexivity]. destruct R; reflexivity.
    + destruct C as [|d C].
      * cbn [app last]. rewrite E92. destruct HR as [->|[u ->]]; reflexivity.
      * change (last (c :: d :: C) 0) with (last (d :: C) 0).
        change (removelast (c :: d :: C)) with (c :: removelast (d :: C)).
        rewrite (IH R HC' HR).
        destruct (last (d :: C) 0 =? 92); [|reflexivity]. destruct R; reflexivity.
Qed.

Definition tl_opt (R : bytes) : option bytes := match R with [] => None | _ :: t => Some t end.

Lemma last_app_ne : forall (B C : bytes), C <> [] -> last (B ++ C) 0 = last C 0.
Proof.
  intros. destruct (exists_last H) as [C' [c ->]]. rewrite app_assoc, !last_last. reflexivity.
Qed.

Lemma qloop_split : forall f R B C, (length R < f)%nat -> Forall (fun c => c <> 34) C ->
  (R = [] \/ exists u, R = 34 :: u) -> (C = [] -> last B 0 <> 92) ->
  (fst (qloop f (B ++ C) R), tl_opt (snd (qloop f (B ++ C) R)))
  = (B ++ fst (q_split (C ++ R)), snd (q_split (C ++ R))).
Proof.
  induction f as [|f IH]; intros R B C Hf HC HR HB; [lia|].
  rewrite q_split_chunk by assumption. cbn [qloop].
  assert (Hlast : last (B ++ C) 0 =? 92 = (last C 0 =? 92)).
  { destruct C as [|c C].
    - rewrite app_nil_r. specialize (HB eq_refl). cbn [last]. lia.
    - now rewrite last_app_ne by easy. }
  rewrite Hlast. destruct (last C 0 =? 92) eqn:E; [|reflexivity].
  assert (HCn : C <> []) by (intro; subst; discriminate).
  rewrite removelast_app by assumption.
  destruct R as [|r t]; [reflexivity|].
  cbn [fst snd]. destruct HR as [HR|[u HR]]; [discriminate|]. inversion HR; subst r u.
  cbn [length] in Hf.
  replace ((B ++ removelast C) ++ 34 :: take_while qw t)
    with ((B ++ removelast C ++ [34]) ++ take_while qw t) by (rewrite <- !app_assoc; reflexivity).
  rewrite IH.
  - rewrite take_drop_while. rewrite <- !app_assoc. reflexivity.
  - pose proof (f_equal (@length Z) (take_drop_while qw t)) as Hl. rewrite app_length in Hl. lia.
  - apply take_qw.
  - apply drop_qw_head.
  - intros _. rewrite app_assoc, last_last. lia.
Qed.

Lemma move_shape : forall (X Y X' K D : bytes) n,
  firstn (length X) (X ++ Y) ++ firstn (length K) (skipn (length X') (X' ++ K ++ D)) ++ skipn (length X + n) (X ++ Y)
  = X ++ K ++ skipn n Y.
Proof.
  intros. rewrite skipn_app, skipn_all, Nat.sub_diag. cbn [skipn app].
  rewrite !firstn_app, !firstn_all, !Nat.sub_diag. cbn [firstn]. rewrite !app_nil_r.
  rewrite skipn_app. rewrite (skipn_all2 X) by lia.
  replace (length X + n - length X)%nat with n by lia. reflexivity.
Qed.

(** The memory loop follows it. *)
Lemma quote_loop_spec : forall f pre A J R post, (length R < f)%nat -> A <> [] ->
  no_nul A -> no_nul R -> (R = [] \/ exists u, R = 34 :: u) ->
  exists A' J' R', qloop f A R = (A', R')
  /\ (length A' + length J' + length R' <= length A + length J + length R)%nat
  /\ no_nul A' /\ no_nul R' /\
  ((quote_loop f (pre ++ A ++ J ++ R ++ 0 :: post) (len pre + len A - 1) (len pre + len A + len J) [34] 92
    = Ok (pre ++ A' ++ J' ++ R' ++ 0 :: post, len pre + len A' - 1, len pre + len A' + len J'))
   \/ (R' = [] /\ exists J'', J' = 0 :: J'' /\
       quote_loop f (pre ++ A ++ J ++ R ++ 0 :: post) (len pre + len A - 1) (len pre + len A + len J) [34] 92
       = Ok (pre ++ A' ++ J' ++ R' ++ 0 :: post, len pre + len A', len pre + len A' + len J'))).
Proof.
  induction f as [|f IH]; intros pre A J R post Hf HA HnA HnR HR; [lia|].
  cbn [quote_loop qloop].
  destruct (exists_last HA) as [A0 [c HAc]].
  assert (Hrd : rd (pre ++ A ++ J ++ R ++ 0 :: post) (len pre + len A - 1) = Ok c).
  { subst A. replace (len pre + len (A0 ++ [c]) - 1) with (len (pre ++ A0))
      by (rewrite !len_app; change (len [c]) with 1; lia).
    replace (pre ++ (A0 ++ [c]) ++ J ++ R ++ 0 :: post) with ((pre ++ A0) ++ c :: (J ++ R ++ 0 :: post))
      by (rewrite <- !app_assoc; reflexivity). apply rd_app. }
  rewrite Hrd. cbn [bind].
  assert (Hlast : last A 0 = c) by (subst A; apply last_last). rewrite Hlast.
  destruct (c =? 92) eqn:E; cbn [negb].
  2:{ exists A, J, R. split; [reflexivity|]. split; [lia|]. split; [assumption|]. split; [assumption|].
      left. reflexivity. }
  assert (Hrl : removelast A = A0) by (subst A; apply removelast_last). rewrite Hrl.
  assert (HnA0 : no_nul A0) by (subst A; apply no_nul_app in HnA; tauto).
  assert (Hrde : rd (pre ++ A ++ J ++ R ++ 0 :: post) (len pre + len A + len J)
                 = Ok (match R with [] => 0 | d :: _ => d end)).
  { replace (len pre + len A + len J) with (len (pre ++ A ++ J)) by (rewrite !len_app; lia).
    destruct R as [|d t].
    - cbn [app]. replace (pre ++ A ++ J ++ 0 :: post) with ((pre ++ A ++ J) ++ 0 :: post)
        by (rewrite <- !app_assoc; reflexivity). apply rd_app.
    - cbn [app]. replace (pre ++ A ++ J ++ d :: t ++ 0 :: post) with ((pre ++ A ++ J) ++ d :: (t ++ 0 :: post))
        by (rewrite <- !app_assoc; reflexivity). apply rd_app. }
  rewrite Hrde. cbn [bind].
  destruct R as [|d t].
  - cbn [Z.eqb]. 
    assert (Hw : wr (pre ++ A ++ J ++ [] ++ 0 :: post) (len pre + len A - 1) 0
                 = Ok (pre ++ A0 ++ (0 :: J) ++ [] ++ 0 :: post)).
    { subst A. replace (len pre + len (A0 ++ [c]) - 1) with (len (pre ++ A0))
        by (rewrite !len_app; change (len [c]) with 1; lia).
      replace (pre ++ (A0 ++ [c]) ++ J ++ [] ++ 0 :: post) with ((pre ++ A0) ++ c :: (J ++ [] ++ 0 :: post))
        by (rewrite <- !app_assoc; reflexivity).
      rewrite wr_mid. rewrite <- !app_assoc. reflexivity. }
    rewrite Hw. cbn [bind].
    exists A0, (0 :: J), []. split; [reflexivity|]. split; [subst A; rewrite app_length; cbn; lia|].
    split; [assumption|]. split; [intros []|].
    right. split; [reflexivity|]. exists J. split; [reflexivity|].
    subst A. do 2 f_equal; [f_equal|]; rewrite ?len_app, ?len_cons; change (len (@nil Z)) with 0; lia.
  - destruct HR as [HR|[u HR]]; [discriminate|]. inversion HR; subst d u. cbn [Z.eqb Pos.eqb].
    apply no_nul_cons in HnR as [_ Hnt].
    replace (len pre + len A + len J + 1) with (len (pre ++ A ++ J ++ [34]))
      by (rewrite !len_app; change (len [34]) with 1; lia).
    replace (pre ++ A ++ J ++ (34 :: t) ++ 0 :: post) with ((pre ++ A ++ J ++ [34]) ++ t ++ 0 :: post)
      by (rewrite <- !app_assoc; reflexivity).
    rewrite cstr_at_app by assumption. cbn [bind]. cbv zeta.
    unfold est_strcspn. change (fun c0 => negb (memb c0 [34])) with qw.
    set (k := take_while qw t).
    assert (Hk : t = k ++ drop_while qw t) by (symmetry; apply take_drop_while).
    set (J1 := skipn (1 + length k) (c :: J ++ 34 :: k)).
    assert (Hlj : length J1 = (length J + 1)%nat).
    { unfold J1. rewrite skipn_length. cbn [length]. rewrite app_length. cbn [length]. lia. }
    assert (Hmv : move_in ((pre ++ A ++ J ++ [34]) ++ t ++ 0 :: post) (len pre + len A - 1)
                  (len pre + len A + len J) (len k + 1)
                  = Ok (pre ++ (A0 ++ 34 :: k) ++ J1 ++ drop_while qw t ++ 0 :: post)).
    { unfold move_in. subst A. rewrite !len_app.
      change (len [34]) with 1. change (len [c]) with 1. rewrite len_cons.
      pose proof (len_nonneg _ pre). pose proof (len_nonneg _ A0). pose proof (len_nonneg _ J).
      pose proof (len_nonneg _ k). pose proof (len_nonneg _ post).
      assert (len t = len k + len (drop_while qw t)) by (rewrite Hk at 1; apply len_app).
      pose proof (len_nonneg _ (drop_while qw t)).
      match goal with |- (if ?b then _ else _) = _ => replace b with true by lia end.
      f_equal.
      replace (Z.to_nat (len pre + (len A0 + 1) - 1)) with (length (pre ++ A0))
        by (rewrite app_length; unfold len; lia).
      replace (Z.to_nat (len k + 1)) with (length (34 :: k)) by (unfold len; cbn [length]; lia).
      replace (Z.to_nat (len pre + (len A0 + 1) + len J)) with (length (pre ++ A0 ++ [c] ++ J))
        by (rewrite !app_length; cbn [length]; unfold len; lia).
      replace (Z.to_nat (len pre + (len A0 + 1) - 1 + (len k + 1))) with (length (pre ++ A0) + (1 + length k))%nat
        by (rewrite app_length; unfold len; lia).
      assert (Hm1 : (pre ++ (A0 ++ [c]) ++ J ++ [34]) ++ t ++ 0 :: post
              = (pre ++ A0) ++ (c :: J ++ 34 :: k) ++ drop_while qw t ++ 0 :: post).
      { rewrite Hk at 1. rewrite <- !app_assoc. cbn [app]. rewrite <- !app_assoc. reflexivity. }
      assert (Hm2 : (pre ++ (A0 ++ [c]) ++ J ++ [34]) ++ t ++ 0 :: post
              = (pre ++ A0 ++ [c] ++ J) ++ (34 :: k) ++ drop_while qw t ++ 0 :: post).
      { rewrite Hk at 1. rewrite <- !app_assoc. cbn [app]. rewrite <- ?app_assoc. reflexivity. }
      rewrite Hm2 at 2. rewrite !Hm1. rewrite move_shape.
      rewrite skipn_app. fold J1.
      replace (1 + length k - length (c :: J ++ 34%Z :: k))%nat with 0%nat
        by (cbn [length]; rewrite app_length; cbn [length]; lia).
      cbn [skipn]. rewrite <- !app_assoc. reflexivity. }
    match goal with |- context [bind (move_in ?a ?b ?c ?d) _] =>
      replace (move_in a b c d) with (move_in ((pre ++ A ++ J ++ [34]) ++ t ++ 0 :: post) (len pre + len A - 1)
                  (len pre + len A + len J) (len k + 1)) by reflexivity end.
    rewrite Hmv. cbn [bind].
    destruct (IH pre (A0 ++ 34 :: k) J1 (drop_while qw t) post) as (A' & J' & R' & H1 & H2 & H3 & H4 & H5).
    + cbn [length] in Hf. rewrite Hk, app_length in Hf. lia.
    + now destruct A0.
    + apply no_nul_app; split; [assumption|]. apply no_nul_cons. split; [lia|]. unfold k. now apply no_nul_take.
    + now apply no_nul_drop.
    + apply drop_qw_head.
    + exists A', J', R'. split; [exact H1|]. split.
      { subst A. rewrite !app_length in *. cbn [length] in *. rewrite Hlj in H2.
        pose proof (f_equal (@length Z) Hk) as Hkl. rewrite app_length in Hkl. lia. }
      split; [assumption|]. split; [assumption|].
      replace (len pre + len (A0 ++ 34 :: k) - 1) with (len pre + len A - 1 + len k) in H5
        by (subst A; unfold len; rewrite !app_length; cbn [length]; lia).
      replace (len pre + len (A0 ++ 34 :: k) + len J1) with (len pre + len A + len J + len k + 1) in H5.
      2:{ subst A. unfold len. rewrite Hlj, !app_length. cbn [length]. lia. }
      exact H5.
Qed.

Lemma quote_loop_length : forall f m p e ds q m' p' e',
  quote_loop f m p e ds q = Ok (m', p', e') -> length m' = length m.
Proof.
  induction f as [|f IH]; intros m p e ds q m' p' e' H; cbn [quote_loop] in H; [discriminate|].
  destruct (rd m p) as [c|]; cbn [bind] in H; [|discriminate].
  destruct (negb (c =? q)); [inversion H; reflexivity|].
  destruct (rd m e) as [ce|]; cbn [bind] in H; [|discriminate].
  destruct (ce =? 0).
  - rewrite wr_len in H. destruct ((0 <=? p) && (p <? len m)); cbn [bind] in H; [|discriminate].
    inversion H; subst. apply set_nth_length.
  - destruct (cstr_at m (e + 1)) as [w|]; cbn [bind] in H; [|discriminate].
    unfold move_in in H.
    match type of H with context [if ?b then Ok _ else UB] => destruct b eqn:Eb end; cbn [bind] in H; [|discriminate].
    apply IH in H. rewrite H. rewrite !app_length, !firstn_length, !skipn_length. unfold len in *. lia.
Qed.

Definition q_rest (t : bytes) : bytes :=
  match snd (q_split t) with Some u => drop_while (fun c => memb c [32]) u | None => [] end.

Lemma zero_range_nil : forall m i, zero_range m i i = Ok m.
Proof. intros. unfold zero_range. rewrite Z.sub_diag. reflexivity. Qed.

Lemma q_step : forall pre s post, no_nul s ->
  exists z, let pre' := pre ++ fst (q_split s) ++ repeat 0 z in
    skip_quoted (pre ++ s ++ 0 :: post) (len pre) [34] [32] 92 =
      Ok (pre' ++ q_rest s ++ 0 :: post, len pre, len pre')
    /\ len pre' + len (q_rest s) = len pre + len s
    /\ (z = 0%nat -> q_rest s = [])
    /\ no_nul (fst (q_split s)) /\ no_nul (q_rest s).
Proof.
  intros pre s post Hs. unfold skip_quoted.
  rewrite cstr_at_app by assumption. cbn [bind]. cbv zeta.
  unfold est_strcspn. change (fun c0 => negb (memb c0 [34])) with qw.
  set (C := take_while qw s). set (R := drop_while qw s).
  assert (HsCR : s = C ++ R) by (symmetry; apply take_drop_while).
  assert (HnC : no_nul C) by now apply no_nul_take.
  assert (HnR : no_nul R) by now apply no_nul_drop.
  assert (HR : R = [] \/ exists u, R = 34 :: u) by apply drop_qw_head.
  (* after the word: A, zeros k, R' *)
  assert (Hmid : exists A k R', 
     (if len pre <? len pre + len C
      then ' (m', p, e) <- quote_loop (S (length (pre ++ s ++ 0 :: post))) (pre ++ s ++ 0 :: post)
              (len pre + len C - 1) (len pre + len C) [34] 92 ;;
           m'' <- zero_range m' (p + 1) e ;; Ok (m'', e)
      else Ok (pre ++ s ++ 0 :: post, len pre + len C))
     = Ok (pre ++ A ++ repeat 0 k ++ R' ++ 0 :: post, len pre + len A + Z.of_nat k)
     /\ (A, tl_opt R') = (fst (q_split s), snd (q_split s))
     /\ no_nul A /\ no_nul R' /\ len A + Z.of_nat k + len R' = len s).
  { destruct (len pre <? len pre + len C) eqn:Elt.
    - assert (HC : C <> []) by (intro E; rewrite E in Elt; cbn in Elt; lia).
      destruct (quote_loop_spec (S (length (pre ++ s ++ 0 :: post))) pre C [] R post)
        as (A' & J' & R' & H1 & H2 & H3 & H4 & H5); try assumption.
      { rewrite !app_length. cbn [length]. rewrite HsCR, app_length. lia. }
      change (len (@nil Z)) with 0 in H5. rewrite Z.add_0_r in H5.
      cbn [app] in H5.
      assert (Hs2 : pre ++ C ++ R ++ 0 :: post = pre ++ s ++ 0 :: post).
      { rewrite HsCR, <- app_assoc. reflexivity. }
      rewrite Hs2 in H5.
      assert (Hq : (A', tl_opt R') = (fst (q_split s), snd (q_split s))).
      { pose proof (qloop_split (S (length (pre ++ s ++ 0 :: post))) R [] C) as Hq.
        cbn [app] in Hq. rewrite H1 in Hq. cbn [fst snd] in Hq. rewrite <- HsCR in Hq.
        apply Hq; [|apply take_qw|assumption|intro; contradiction].
        rewrite !app_length. cbn [length]. rewrite HsCR, app_length. lia. }
      assert (Hlen : forall m p e, quote_loop (S (length (pre ++ s ++ 0 :: post))) (pre ++ s ++ 0 :: post)
              (len pre + len C - 1) (len pre + len C) [34] 92 = Ok (m, p, e) -> length m = length (pre ++ s ++ 0 :: post)).
      { intros m p e. apply quote_loop_length. }
      destruct H5 as [H5|(HR' & J'' & HJ & H5)]; rewrite H5; cbn [bind].
      + specialize (Hlen _ _ _ H5).
        rewrite app_assoc. 
        replace ((pre ++ A') ++ J' ++ R' ++ 0 :: post) with ((pre ++ A') ++ J' ++ (R' ++ 0 :: post)) by reflexivity.
        rewrite (zero_range_spec J' (pre ++ A') (R' ++ 0 :: post)) by (rewrite !len_app; lia).
        cbn [bind]. exists A', (length J'), R'. split.
        { rewrite <- !app_assoc. reflexivity. }
        split; [exact Hq|]. split; [assumption|]. split; [assumption|].
        rewrite !app_length in Hlen. unfold len. lia.
      + specialize (Hlen _ _ _ H5). subst R' J'.
        replace (pre ++ A' ++ (0 :: J'') ++ [] ++ 0 :: post) with ((pre ++ A' ++ [0]) ++ J'' ++ 0 :: post)
          by (rewrite <- !app_assoc; reflexivity).
        rewrite (zero_range_spec J'' (pre ++ A' ++ [0]) (0 :: post))
          by (rewrite !len_app; change (len [0]) with 1; rewrite ?len_cons; lia).
        cbn [bind]. exists A', (S (length J'')), []. split.
        { rewrite <- !app_assoc. cbn [repeat app]. do 2 f_equal. }
        split; [exact Hq|]. split; [assumption|]. split; [intros []|].
        rewrite !app_length in Hlen. cbn [length] in Hlen. unfold len. cbn [length]. lia.
    - assert (HC : C = []) by (apply len_0_nil; pose proof (len_nonneg _ C); lia).
      exists [], 0%nat, R. rewrite HC in *. cbn [app] in HsCR. split.
      { rewrite HsCR. cbn [app repeat]. do 2 f_equal. cbn. lia. }
      split.
      { rewrite HsCR. destruct HR as [->|[u ->]]; reflexivity. }
      split; [intros []|]. split; [assumption|]. rewrite HsCR at 1. change (len (@nil Z)) with 0. lia. }
  destruct Hmid as (A & k & R' & Hm & Hq & HnA & HnR' & Hl).
  match goal with |- context [bind ?e _ = _] =>
    replace e with (Ok (pre ++ A ++ repeat 0 k ++ R' ++ 0 :: post, len pre + len A + Z.of_nat k) : res (bytes * Z))
      by (symmetry; exact Hm) end.
  clear Hm. cbn [bind]. apply pair_equal_spec in Hq as [HqA HqR].
  rewrite <- HqA. unfold q_rest. rewrite <- HqR.
  replace (len pre + len A + Z.of_nat k) with (len (pre ++ A ++ repeat 0 k)) by (rewrite !len_app, len_repeat; lia).
  replace (pre ++ A ++ repeat 0 k ++ R' ++ 0 :: post) with ((pre ++ A ++ repeat 0 k) ++ R' ++ 0 :: post)
    by (rewrite <- !app_assoc; reflexivity).
  destruct R' as [|d t].
  - cbn [app tl_opt]. rewrite rd_app. cbn [bind Z.eqb]. exists k.
    change (len (@nil Z)) with 0 in *.
    split; [reflexivity|]. split; [rewrite !len_app, len_repeat; lia|].
    split; [reflexivity|]. split; [assumption|intros []].
  - cbn [app tl_opt]. rewrite rd_app. cbn [bind].
    apply no_nul_cons in HnR' as [Hd Ht]. replace (d =? 0) with false by lia.
    set (P := pre ++ A ++ repeat 0 k).
    replace (len P + 1) with (len (P ++ [d])) by (rewrite len_app; reflexivity).
    replace (P ++ d :: t ++ 0 :: post) with ((P ++ [d]) ++ t ++ 0 :: post) by (rewrite <- app_assoc; reflexivity).
    rewrite cstr_at_app by assumption. cbn [bind].
    unfold est_strspn. set (g := take_while (fun c => memb c [32]) t).
    assert (Htg : t = g ++ drop_while (fun c => memb c [32]) t) by (symmetry; apply take_drop_while).
    replace ((P ++ [d]) ++ t ++ 0 :: post)
      with (P ++ (d :: g) ++ (drop_while (fun c => memb c [32]) t ++ 0 :: post)).
    2:{ rewrite Htg at 2. rewrite <- !app_assoc. reflexivity. }
    rewrite zero_range_spec; [|reflexivity|unfold len; rewrite !app_length; cbn [length]; lia].
    cbn [bind]. exists (k + S (length g))%nat.
    assert (HP : P ++ repeat 0 (length (d :: g)) = pre ++ A ++ repeat 0 (k + S (length g))).
    { unfold P. cbn [length]. rewrite (repeat_app 0 k (S (length g))). rewrite <- !app_assoc. reflexivity. }
    split.
    { rewrite <- HP. rewrite <- app_assoc. do 2 f_equal. rewrite !len_app, len_repeat.
      change (len [d]) with 1. unfold len. cbn [length]. lia. }
    split.
    { rewrite <- HP. unfold P. rewrite !len_app, !len_repeat.
      assert (len t = len g + len (drop_while (fun c => memb c [32]) t)) by (rewrite Htg at 1; apply len_app).
      rewrite len_cons in Hl. unfold len in *. cbn [length] in *. lia. }
    split; [intro; lia|]. split; [assumption|now apply no_nul_drop].
Qed.

Ltac ll := unfold len in *; repeat rewrite app_length in *; cbn [length] in *; lia.

(** ** Name/value pairs *)

Definition pair_value (r : bytes) : bytes * bytes :=
  match r with
  | c :: t =>
    if c =? 34 then
      (fst (q_split t), match q_rest t with
                        | d :: u => if d =? 44 then u else q_rest t
                        | [] => []
                        end)
    else (until (str ", ") r, past (str ", ") r)
  | [] => ([], [])
  end.

Lemma digest_pair_eq : forall s,
  digest_pair s = (until (str "=") s, fst (pair_value (past (str "=") s)), snd (pair_value (past (str "=") s))).
Proof.
  intros. unfold digest_pair. set (r := past (str "=") s). clearbody r. set (n := until (str "=") s). clearbody n.
  cbv zeta. unfold pair_value. destruct r as [|c t]; [reflexivity|].
  fold (q_rest t). destruct (c =? 34); reflexivity.
Qed.

Lemma cstr_at_zeros : forall pre w z rest post, no_nul w -> (z = 0%nat -> rest = []) ->
  cstr_at ((pre ++ w ++ repeat 0 z) ++ rest ++ 0 :: post) (len pre) = Ok w.
Proof.
  intros pre w z rest post Hw Hz. destruct z as [|z].
  - rewrite (Hz eq_refl). cbn [repeat app]. rewrite app_nil_r, <- app_assoc. now apply cstr_at_app.
  - cbn [repeat]. rewrite <- !app_assoc. cbn [app]. now apply cstr_at_app.
Qed.

Lemma value_step : forall pre r post, no_nul r ->
  exists X vo, let pre' := pre ++ X in
  (c <- rd (pre ++ r ++ 0 :: post) (len pre) ;;
   (if c =? 34 then
      ' (m', v, s') <- skip_quoted (pre ++ r ++ 0 :: post) (len pre + 1) [34] [32] 92 ;;
      c' <- rd m' s' ;;
      Ok (m', v, if c' =? 44 then s' + 1 else s')
    else skip_quoted (pre ++ r ++ 0 :: post) (len pre) [44; 32] [32] 0))
  = Ok (pre' ++ snd (pair_value r) ++ 0 :: post, vo, len pre')
  /\ cstr_at (pre' ++ snd (pair_value r) ++ 0 :: post) vo = Ok (fst (pair_value r))
  /\ len pre' + len (snd (pair_value r)) = len pre + len r
  /\ no_nul (snd (pair_value r)) /\ (r = [] -> X = []).
Proof.
  intros pre r post Hr. unfold pair_value.
  destruct r as [|c t].
  - exists [], (len pre). cbn [app]. rewrite rd_app. cbn [bind Z.eqb].
    pose proof (skip_quoted_spec pre [] post [44;32] [32] (fun H => H)) as Hs.
    cbn [fst snd cut take_while drop_while gap app length repeat] in Hs. rewrite Hs.
    rewrite !app_nil_r. change (len (@nil Z)) with 0. split; [do 2 f_equal; lia|].
    split; [exact (cstr_at_app pre [] post (fun H => H))|]. cbn [snd fst]; change (len (@nil Z)) with 0; split; [lia|]. split; [intros []|reflexivity].
  - cbn [app]. rewrite rd_app. cbn [bind].
    apply no_nul_cons in Hr as [Hc Ht].
    destruct (c =? 34) eqn:E.
    + replace (len pre + 1) with (len (pre ++ [c])) by (rewrite len_app; reflexivity).
      replace (pre ++ c :: t ++ 0 :: post) with ((pre ++ [c]) ++ t ++ 0 :: post) by (rewrite <- app_assoc; reflexivity).
      destruct (q_step (pre ++ [c]) t post Ht) as (z & H1 & H2 & H3 & H4 & H5). cbv zeta in *.
      rewrite H1. cbn [bind].
      set (P := (pre ++ [c]) ++ fst (q_split t) ++ repeat 0 z) in *.
      assert (HP : exists X, P = pre ++ X) by (unfold P; rewrite <- !app_assoc; now eexists).
      assert (Hv : cstr_at (P ++ q_rest t ++ 0 :: post) (len (pre ++ [c])) = Ok (fst (q_split t)))
        by (apply cstr_at_zeros; assumption).
      clearbody P. destruct HP as [X HP].
      destruct (q_rest t) as [|d u].
      * cbn [app]. rewrite rd_app. cbn [bind Z.eqb]. exists X, (len (pre ++ [c])). rewrite <- HP.
        split; [reflexivity|]. split; [exact Hv|]. cbn [snd fst]. split.
        { clear - H2. ll. }
        split; [intros []|discriminate].
      * cbn [app]. rewrite rd_app. cbn [bind]. destruct (d =? 44).
        -- exists (X ++ [d]), (len (pre ++ [c])). replace (pre ++ X ++ [d]) with (P ++ [d]) by (rewrite HP, app_assoc; reflexivity). cbn [fst snd].
           split.
           { rewrite <- app_assoc. cbn [app]. rewrite (len_app _ P). reflexivity. }
           split.
           { rewrite <- app_assoc. exact Hv. }
           split; [clear - H2; ll|]. apply no_nul_cons in H5. split; [tauto|discriminate].
        -- exists X, (len (pre ++ [c])). rewrite <- HP. cbn [fst snd].
           split; [reflexivity|]. split; [exact Hv|]. split.
           { clear - H2. ll. }
           split; [assumption|discriminate].
    + replace (pre ++ c :: t ++ 0 :: post) with (pre ++ (c :: t) ++ 0 :: post) by reflexivity.
      assert (Hn : no_nul (c :: t)) by (apply no_nul_cons; now split).
      destruct (skip_step pre (c :: t) post [44; 32] [32] Hn) as (pre' & H1 & H2 & z & H3 & H4).
      change (snd (cut [44; 32] [32] (c :: t))) with (past (str ", ") (c :: t)) in *.
      change (fst (cut [44; 32] [32] (c :: t))) with (until (str ", ") (c :: t)) in *.
      exists (until (str ", ") (c :: t) ++ repeat 0 z), (len pre). rewrite <- H3. cbn [fst snd].
      split; [exact H1|]. split.
      { rewrite H3. apply cstr_at_zeros; [|assumption]. now apply no_nul_take. }
      split; [exact H2|]. split; [|discriminate].
      change (past (str ", ") (c :: t)) with (snd (cut [44; 32] [32] (c :: t))). now apply cut_no_nul.
Qed.

Definition apply_param (a : auth_hdr) (p : bytes * bytes) : auth_hdr :=
  let '(n, v) := p in
  if prefixb (str "username") n then with_user a (strndup v 255)
  else if prefixb (str "cnonce") n then with_cnonce a (strndup v 64)
  else if prefixb (str "response") n then with_response a (strndup v 64)
  else if prefixb (str "uri") n then with_uri a (strndup v 255)
  else if prefixb (str "qop") n then with_qop a (strndup v 10)
  else if prefixb (str "nc") n then with_nc a (strndup v 9)
  else if prefixb (str "nonce") n then with_nonce a (strndup v 64)
  else a.

Lemma prefix_memcmp : forall lit n q, no_nul lit -> len lit <= len (n ++ 0 :: q) ->
  beq (firstn (length lit) (n ++ 0 :: q)) lit = prefixb lit n.
Proof.
  induction lit as [|x lit IH]; intros n q Hl Hlen; [reflexivity|].
  apply no_nul_cons in Hl as [Hx Hl].
  destruct n as [|y n].
  - cbn [app length firstn beq prefixb]. replace (0 =? x) with false by lia. reflexivity.
  - cbn [app length firstn beq prefixb]. rewrite Z.eqb_sym. f_equal. apply IH; [assumption|].
    rewrite !len_cons in Hlen. cbn [app] in Hlen. rewrite len_cons in Hlen. lia.
Qed.

Lemma name_is_spec : forall P n q lit, no_nul lit ->
  name_is (P ++ n ++ 0 :: q) (len P) lit =
  if len P + len lit <=? len (P ++ n ++ 0 :: q) then Ok (prefixb lit n) else UB.
Proof.
  intros P n q lit Hl. unfold name_is, memcmp_eq. rewrite skipn_len_app.
  rewrite (len_app _ P). rewrite Z.leb_refl, andb_true_r.
  destruct (len lit <=? len (n ++ 0 :: q)) eqn:E.
  - replace (len P + len lit <=? len P + len (n ++ 0 :: q)) with true by lia. f_equal.
    rewrite <- (prefix_memcmp lit n q) by (assumption || lia).
    unfold len. rewrite Nat2Z.id, firstn_all. reflexivity.
  - replace (len P + len lit <=? len P + len (n ++ 0 :: q)) with false by lia. reflexivity.
Qed.

Lemma digest_loop_spec : forall f pre s post a, no_nul s -> len (pre ++ s ++ 0 :: post) = 384 ->
  digest_loop f (pre ++ s ++ 0 :: post) (len pre) a =
  match digest_pairs f 384 (len pre + len s) s with
  | Ok ps => Ok (fold_left apply_param ps a)
  | UB => UB
  end.
Proof.
  induction f as [|f IH]; intros pre s post a Hs Hm; [reflexivity|].
  cbn [digest_loop digest_pairs]. rewrite cstr_at_app by assumption. cbn [bind]. cbv zeta.
  set (sp := take_while isspace s). set (s1 := drop_while isspace s).
  assert (Hsp : s = sp ++ s1) by (symmetry; apply take_drop_while).
  assert (Hs1 : no_nul s1) by now apply no_nul_drop.
  set (P := pre ++ sp).
  assert (HlP : len P = len pre + len sp) by apply len_app.
  replace (pre ++ s ++ 0 :: post) with (P ++ s1 ++ 0 :: post) in * by (rewrite Hsp; unfold P; rewrite <- !app_assoc; reflexivity).
  assert (HT : len pre + len s = len P + len s1) by (rewrite Hsp, len_app; lia).
  rewrite HT. rewrite <- HlP. clearbody P s1. clear Hsp sp HlP Hs HT s pre.
  rewrite digest_pair_eq.
  destruct (skip_step P s1 post [61] [32] Hs1) as (pre2 & H1 & H2 & z & H3 & H4).
  change (snd (cut [61] [32] s1)) with (past (str "=") s1) in *.
  change (fst (cut [61] [32] s1)) with (until (str "=") s1) in *.
  rewrite H1. cbn [bind].
  assert (Hr : no_nul (past (str "=") s1)) by (apply (cut_no_nul [61] [32] s1); assumption).
  assert (Hn : no_nul (until (str "=") s1)) by now apply no_nul_take.
  set (r := past (str "=") s1) in *. set (nm := until (str "=") s1) in *.
  destruct (value_step pre2 r post Hr) as (X & vo & V1 & V2 & V3 & V4 & V5). cbv zeta in *.
  destruct (pair_value r) as [v rest] eqn:Epv. cbn [fst snd] in *.
  destruct (rd (pre2 ++ r ++ 0 :: post) (len pre2)) as [c|]; cbn [bind] in V1 |- *; [|discriminate].
  match goal with |- bind ?e _ = _ =>
    replace e with (Ok ((pre2 ++ X) ++ rest ++ 0 :: post, vo, len (pre2 ++ X)) : res (bytes * Z * Z))
      by (symmetry; exact V1) end.
  cbn [bind].
  assert (Hshape : exists q, (pre2 ++ X) ++ rest ++ 0 :: post = P ++ nm ++ 0 :: q).
  { rewrite H3. destruct z as [|z].
    - specialize (H4 eq_refl). rewrite (V5 H4). rewrite H4 in Epv. inversion Epv; subst. exists post.
      cbn [repeat app]. rewrite !app_nil_r, <- !app_assoc. reflexivity.
    - cbn [repeat]. eexists. rewrite <- !app_assoc. cbn [app]. rewrite <- ?app_assoc. reflexivity. }
  assert (Hm2 : len ((pre2 ++ X) ++ rest ++ 0 :: post) = 384).
  { rewrite <- Hm. rewrite !(len_app _ (pre2 ++ X)), !(len_app _ P), !(len_app _ rest), !(len_app _ s1). lia. }
  destruct Hshape as [q Hq].
  assert (Hdone : forall a', digest_loop f ((pre2 ++ X) ++ rest ++ 0 :: post) (len (pre2 ++ X)) a' =
     match digest_pairs f 384 (len P + len s1) rest with
     | Ok ps => Ok (fold_left apply_param ps a')
     | UB => UB
     end).
  { intro a'. rewrite IH by assumption. replace (len (pre2 ++ X) + len rest) with (len P + len s1) by lia. reflexivity. }
  rewrite V2. rewrite Hq in *.
  destruct nm as [|n0 nm'] eqn:Enm.
  { cbn [app]. rewrite rd_app. reflexivity. }
  replace (rd (P ++ (n0 :: nm') ++ 0 :: q) (len P)) with (Ok n0) by (cbn [app]; symmetry; apply rd_app).
  cbn [bind]. assert (n0 <> 0) by (apply no_nul_cons in Hn; tauto). replace (n0 =? 0) with false by lia.
  rewrite <- Enm in *. clear Enm n0 nm' H.
  rewrite !name_is_spec by (intros H; cbn in H; intuition discriminate). rewrite Hm2.
  replace (len P + len s1 - len s1 + 8) with (len P + 8) by lia.
  change (len (str "username")) with 8. change (len (str "cnonce")) with 6. change (len (str "response")) with 8.
  change (len (str "uri")) with 3. change (len (str "qop")) with 3. change (len (str "nc")) with 2.
  change (len (str "nonce")) with 5.
  destruct (384 <? len P + 8) eqn:E.
  { replace (len P + 8 <=? 384) with false by lia. reflexivity. }
  replace (len P + 8 <=? 384) with true by lia. replace (len P + 6 <=? 384) with true by lia.
  replace (len P + 3 <=? 384) with true by lia. replace (len P + 2 <=? 384) with true by lia.
  replace (len P + 5 <=? 384) with true by lia. cbn [bind].
  rewrite !Hdone.
  destruct (digest_pairs f 384 (len P + len s1) rest) as [ps|]; cbn [bind fold_left apply_param].
  2:{ repeat match goal with |- (if ?b then _ else _) = _ => destruct b; [reflexivity|] end. reflexivity. }
  repeat match goal with |- (if ?b then Ok _ else _) = _ => destruct b; [reflexivity|] end. reflexivity.
Qed.

Lemma digest_pair_shrinks : forall s n v r, no_nul s -> digest_pair s = (n, v, r) ->
  len n + len r <= len s /\ no_nul r.
Proof.
  intros s n v r Hs H. rewrite digest_pair_eq in H.
  destruct (skip_step [] s [] [61] [32] Hs) as (pre2 & _ & H2 & z & H3 & _).
  change (snd (cut [61] [32] s)) with (past (str "=") s) in *.
  change (fst (cut [61] [32] s)) with (until (str "=") s) in *.
  assert (Hr : no_nul (past (str "=") s)) by (apply (cut_no_nul [61] [32] s); assumption).
  destruct (value_step [] (past (str "=") s) [] Hr) as (X & vo & _ & _ & V3 & V4 & _). cbv zeta in *.
  destruct (pair_value (past (str "=") s)) as [v' r'] eqn:Ep. cbn [fst snd] in *.
  apply pair_equal_spec in H as [H ->]. apply pair_equal_spec in H as [<- ->].
  split; [|assumption]. subst pre2. clear Ep. ll.
Qed.

Lemma digest_pairs_fuel : forall f g cap T s, no_nul s -> (length s < f)%nat -> (length s < g)%nat ->
  digest_pairs f cap T s = digest_pairs g cap T s.
Proof.
  induction f as [|f IH]; intros g cap T s Hs Hf Hg; [lia|]. destruct g as [|g]; [lia|].
  cbn [digest_pairs]. set (s1 := drop_while isspace s).
  assert (Hs1 : no_nul s1) by now apply no_nul_drop.
  assert (Hl : len s1 <= len s).
  { unfold s1. rewrite <- (take_drop_while isspace s) at 2. rewrite len_app.
    pose proof (len_nonneg _ (take_while isspace s)). lia. }
  destruct (digest_pair s1) as [[n v] r] eqn:E. destruct (digest_pair_shrinks s1 n v r Hs1 E) as [H1 H2].
  destruct n as [|n0 n]; [reflexivity|]. destruct (cap <? T - len s1 + 8); [reflexivity|].
  assert (length r < length s)%nat.
  { clear - H1 Hl. ll. }
  rewrite (IH g) by (assumption || lia). reflexivity.
Qed.

Lemma strncpy_fits : forall s n, len s < n -> strncpy_img s n = s ++ 0 :: repeat 0 (Z.to_nat (n - len s - 1)).
Proof.
  intros s n H. unfold strncpy_img. rewrite firstn_app, firstn_all2 by (unfold len in H; lia). f_equal.
  replace (Z.to_nat n) with (length s + (S (Z.to_nat (n - len s - 1))))%nat at 2 by (unfold len in *; lia).
  rewrite repeat_app. replace (Z.to_nat n - length s)%nat with (S (Z.to_nat (n - len s - 1))) by (unfold len in *; lia).
  change (0 :: repeat 0 (Z.to_nat (n - len s - 1))) with (repeat 0 (S (Z.to_nat (n - len s - 1)))).
  set (k := S (Z.to_nat (n - len s - 1))). clearbody k. rewrite <- repeat_app.
  rewrite Nat.add_comm, repeat_app, firstn_app, firstn_all2 by (rewrite repeat_length; lia).
  rewrite repeat_length, Nat.sub_diag. cbn [firstn]. apply app_nil_r.
Qed.
Lemma strncpy_full : forall s n, 0 <= n <= len s -> strncpy_img s n = firstn (Z.to_nat n) s.
Proof.
  intros s n H. unfold strncpy_img. rewrite firstn_app.
  replace (Z.to_nat n - length s)%nat with 0%nat by (unfold len in H; lia). cbn [firstn]. apply app_nil_r.
Qed.
Lemma len_strncpy : forall s n, 0 <= n -> len (strncpy_img s n) = n.
Proof. intros. unfold strncpy_img. rewrite len_firstn, len_app, len_repeat. pose proof (len_nonneg _ s). lia. Qed.

Lemma digest_short : forall rest a, no_nul rest -> len rest < 384 ->
  mg_parse_auth_hdr_digest rest a =
  match digest_params rest with
  | Ok ps => Ok (fold_left apply_param ps (with_mode a AUTH_DIGEST))
  | UB => UB
  end.
Proof.
  intros rest a Hn Hl. unfold mg_parse_auth_hdr_digest. rewrite strncpy_fits by assumption.
  set (post := repeat 0 (Z.to_nat (384 - len rest - 1))).
  change (rest ++ 0 :: post) with ([] ++ rest ++ 0 :: post). change 0 with (len (@nil Z)) at 2.
  rewrite digest_loop_spec; [|assumption|].
  - unfold digest_params. change (len (@nil Z) + len rest) with (len rest).
    rewrite (digest_pairs_fuel (S (Z.to_nat 384)) (S (length rest))); [reflexivity|assumption| |]; unfold len in Hl; lia.
  - cbn [app]. rewrite len_app, len_cons. unfold post. rewrite len_repeat. lia.
Qed.

Lemma cstr_ub : forall m, ~ In 0 m -> cstr m = UB.
Proof.
  intros m H. destruct (cstr m) eqn:E; [|reflexivity].
  exfalso. apply H. apply cstr_ok_iff. eexists. exact E.
Qed.

Lemma digest_loop_ub : forall f m s a, cstr_at m s = UB -> digest_loop (S f) m s a = UB.
Proof. intros f m s a H. cbn [digest_loop]. rewrite H. reflexivity. Qed.

Lemma digest_long : forall rest a, no_nul rest -> 384 <= len rest ->
  mg_parse_auth_hdr_digest rest a = UB.
Proof.
  intros rest a Hn Hl. unfold mg_parse_auth_hdr_digest. rewrite strncpy_full by lia.
  generalize (Z.to_nat 384). intro k. apply digest_loop_ub. rewrite cstr_at_len. rewrite len_firstn.
  pose proof (len_nonneg _ rest).
  replace ((0 <=? 0) && (0 <=? Z.min (Z.of_nat k) (len rest))) with true by lia.
  change (Z.to_nat 0) with 0%nat. rewrite skipn_O. apply cstr_ub.
  intro H0. apply Hn. rewrite <- (firstn_skipn k rest). apply in_or_app. now left.
Qed.

(** Reading the fields. *)
Lemma digest_value_app : forall key a b,
  digest_value key (a ++ b) = match digest_value key b with Some w => Some w | None => digest_value key a end.
Proof.
  induction a as [|[n v] a IH]; intros b; cbn [app digest_value].
  - destruct (digest_value key b); reflexivity.
  - rewrite IH. destruct (digest_value key b); reflexivity.
Qed.

Definition orelse (a b : option bytes) : option bytes := match a with Some w => Some w | None => b end.

Lemma apply_params_fields : forall ps a,
  let r := fold_left apply_param ps a in
  ah_mode r = ah_mode a /\ ah_pwd r = ah_pwd a /\ ah_token r = ah_token a
  /\ ah_user r = orelse (digest_value (str "username") ps) (ah_user a)
  /\ ah_cnonce r = orelse (digest_value (str "cnonce") ps) (ah_cnonce a)
  /\ ah_response r = orelse (digest_value (str "response") ps) (ah_response a)
  /\ ah_uri r = orelse (digest_value (str "uri") ps) (ah_uri a)
  /\ ah_qop r = orelse (digest_value (str "qop") ps) (ah_qop a)
  /\ ah_nc r = orelse (digest_value (str "nc") ps) (ah_nc a)
  /\ ah_nonce r = orelse (digest_value (str "nonce") ps) (ah_nonce a).
Proof.
  induction ps as [|[n v] ps IH] using rev_ind; intros a.
  - cbn. tauto.
  - rewrite fold_left_app. cbn [fold_left]. rewrite !digest_value_app.
    specialize (IH a). cbv zeta in *. set (r := fold_left apply_param ps a) in *. clearbody r.
    destruct IH as (I1 & I2 & I3 & I4 & I5 & I6 & I7 & I8 & I9 & I10).
    unfold apply_param. cbn [digest_value].
    unfold key_of, digest_keys. cbn [fst].
    repeat match goal with |- context [prefixb ?x n] => destruct (prefixb x n) end;
    cbn [ah_mode ah_user ah_pwd ah_uri ah_cnonce ah_qop ah_nc ah_nonce ah_response ah_token with_user with_cnonce with_response with_uri with_qop with_nc with_nonce];
    repeat match goal with |- context [beq ?x ?y] =>
      let b := eval vm_compute in (beq x y) in replace (beq x y) with b by (vm_compute; reflexivity) end;
    cbn [orelse]; unfold strndup; rewrite ?I1, ?I2, ?I3, ?I4, ?I5, ?I6, ?I7, ?I8, ?I9, ?I10; auto 20.
Qed.

(** ** Basic and Bearer *)
Definition b64_printable (c : Z) : Prop := 43 <= c <= 122.

Lemma b64_encode_chars : forall d, all_bytes d -> Forall b64_printable (b64_encode d).
Proof.
  assert (Hc : forall v, 0 <= v < 64 -> b64_printable (b64_char v)).
  { intros v Hv. unfold b64_printable, b64_char.
    destruct (v <? 26) eqn:E1; [lia|]. destruct (v <? 52) eqn:E2; [lia|].
    destruct (v <? 62) eqn:E3; [lia|]. destruct (v =? 62); lia. }
  assert (He : b64_printable 61) by (unfold b64_printable; lia).
  fix IH 1. intros [|a [|b [|c t]]] H; cbn [b64_encode].
  - constructor.
  - inversion H; subst. unfold is_byte in *.
    repeat constructor; try assumption; try apply Hc; Z.to_euclidean_division_equations; lia.
  - inversion H as [|? ? Ha H1]; subst. inversion H1; subst. unfold is_byte in *.
    repeat constructor; try assumption; try apply Hc; Z.to_euclidean_division_equations; lia.
  - inversion H as [|? ? Ha H1]; subst. inversion H1 as [|? ? Hb H2]; subst. inversion H2 as [|? ? Hcc H3]; subst.
    unfold is_byte in *.
    repeat (constructor; [apply Hc; Z.to_euclidean_division_equations; lia|]). now apply IH.
Qed.

Lemma b64_no_space : forall d, all_bytes d -> drop_while isspace (b64_encode d) = b64_encode d.
Proof.
  intros d H. pose proof (b64_encode_chars d H) as Hf. destruct (b64_encode d) as [|c t]; [reflexivity|].
  inversion Hf; subst. cbn [drop_while]. replace (isspace c) with false by (unfold isspace, b64_printable in *; lia). reflexivity.
Qed.
Lemma b64_no_nul : forall d, all_bytes d -> no_nul (b64_encode d).
Proof.
  intros d H Hi. pose proof (b64_encode_chars d H) as Hf. rewrite Forall_forall in Hf. specialize (Hf 0 Hi).
  unfold b64_printable in Hf. lia.
Qed.

Lemma before_char_app : forall c a b, ~ In c a -> before_char c (a ++ c :: b) = a.
Proof.
  intros c a b H. unfold before_char. rewrite take_while_app_all.
  - cbn [take_while]. rewrite Z.eqb_refl. cbn. apply app_nil_r.
  - apply Forall_forall. intros x Hx. destruct (x =? c) eqn:E; [|reflexivity].
    exfalso. apply H. replace c with x by lia. assumption.
Qed.

Lemma wr_tail : forall d n k, len d = n -> (0 < k)%nat ->
  wr (d ++ repeat 0 k) n 0 = Ok (d ++ repeat 0 k).
Proof.
  intros d n [|k] <- H; [lia|]. cbn [repeat]. rewrite wr_mid. reflexivity.
Qed.

Lemma basic_ok : forall bio rest a, b64_bio bio -> is_ok (mg_parse_auth_hdr_basic bio rest a).
Proof.
  intros bio rest a Hb. unfold mg_parse_auth_hdr_basic.
  destruct (decode_safe bio true (drop_while isspace rest) 512) as [[n d] E]; [now left|]. rewrite E. cbn [bind].
  pose proof (fun P => decode_bounded bio Hb _ _ _ _ _ P E) as (H1 & H2 & H3); [lia|].
  destruct ((n <=? 0) || (512 <=? n)) eqn:En; [eexists; reflexivity|].
  rewrite wr_tail by lia. cbn [bind].
  assert (Hi : In 0 (d ++ repeat 0 (Z.to_nat (512 - n)))).
  { apply in_or_app. right. destruct (Z.to_nat (512 - n)) eqn:Ek; [lia|]. now left. }
  apply cstr_ok_iff in Hi as [s Hs].
  assert (Hs' : cstr (d ++ repeat 0 (Z.to_nat (512 - n))) = Ok s) by exact Hs. rewrite Hs'. cbn [bind].
  destruct (negb (memb 58 s)); [eexists; reflexivity|].
  destruct (before_char 58 s); [|eexists; reflexivity]. destruct (1 <? n); eexists; reflexivity.
Qed.

Lemma token_ok : forall bio rest a, b64_bio bio -> is_ok (mg_parse_auth_hdr_token bio rest a).
Proof.
  intros bio rest a Hb. unfold mg_parse_auth_hdr_token.
  destruct (decode_safe bio true (drop_while isspace rest) 1024) as [[n d] E]; [now left|]. rewrite E. cbn [bind].
  pose proof (fun P => decode_bounded bio Hb _ _ _ _ _ P E) as (H1 & H2 & H3); [lia|].
  destruct ((n <=? 0) || (1024 <=? n)) eqn:En; [eexists; reflexivity|].
  rewrite wr_tail by lia. cbn [bind].
  assert (Hi : In 0 (d ++ repeat 0 (Z.to_nat (1024 - n)))).
  { apply in_or_app. right. destruct (Z.to_nat (1024 - n)) eqn:Ek; [lia|]. now left. }
  apply cstr_ok_iff in Hi as [s Hs].
  assert (Hs' : cstr (d ++ repeat 0 (Z.to_nat (1024 - n))) = Ok s) by exact Hs. rewrite Hs'. cbn [bind].
  destruct (drop_while isspace rest); eexists; reflexivity.
Qed.

Lemma strndup_le : forall s n, len s <= n -> strndup s n = s.
Proof. intros s n H. unfold strndup. apply firstn_all2. unfold len in H. lia. Qed.

Lemma skipn_S_app : forall (a : bytes) x b, skipn (S (length a)) (a ++ x :: b) = b.
Proof.
  intros. replace (S (length a)) with (length (a ++ [x])) by (rewrite app_length; cbn; lia).
  replace (a ++ x :: b) with ((a ++ [x]) ++ b) by (rewrite <- app_assoc; reflexivity).
  rewrite skipn_app, skipn_all, Nat.sub_diag. reflexivity.
Qed.

Lemma cstr_pad : forall s k, no_nul s -> (0 < k)%nat -> cstr (s ++ repeat 0 k) = Ok s.
Proof. intros s [|k] H Hk; [lia|]. cbn [repeat]. now apply cstr_app_nul. Qed.

Lemma basic_parse : forall bio user pwd a, b64_bio bio -> c_str_max 255 user -> c_str_max 255 pwd -> ~ In 58 user ->
  mg_parse_auth_hdr_basic bio (b64_encode (user ++ str ":" ++ pwd)) a =
  Ok (match user with
      | [] => match pwd with [] => a | _ => with_mode (with_pwd a pwd) AUTH_BASIC end
      | _ => with_mode (with_pwd (with_user a user) pwd) AUTH_BASIC
      end).
Proof.
  intros bio user pwd a Hb [[Hu1 Hu2] Hu3] [[Hp1 Hp2] Hp3] Hc. change (str ":") with [58].
  assert (Hall : all_bytes (user ++ [58] ++ pwd)).
  { unfold all_bytes in *. rewrite !Forall_app. split; [assumption|]. split; [repeat constructor; unfold is_byte; lia|assumption]. }
  unfold mg_parse_auth_hdr_basic. rewrite b64_no_space by assumption.
  assert (Hl : len (user ++ [58] ++ pwd) = len user + 1 + len pwd) by (rewrite !len_app; change (len [58]) with 1; lia).
  assert (Hne : user ++ [58] ++ pwd <> []) by (destruct user; discriminate).
  rewrite decode_line by (assumption || (rewrite Hl; lia)). cbn [bind].
  pose proof (len_nonneg _ user). pose proof (len_nonneg _ pwd).
  replace ((len (user ++ [58] ++ pwd) <=? 0) || (512 <=? len (user ++ [58] ++ pwd))) with false by lia.
  rewrite wr_tail by lia. cbn [bind].
  rw_bind (cstr_pad (user ++ [58] ++ pwd) (Z.to_nat (512 - len (user ++ [58] ++ pwd)))
            ltac:(apply no_nul_app; split; [assumption|]; apply no_nul_cons; split; [lia|assumption]) ltac:(lia)).
  replace (negb (memb 58 (user ++ [58] ++ pwd))) with false.
  2:{ symmetry. apply negb_false_iff. apply memb_In. apply in_or_app. right. now left. }
  cbv zeta. cbn [app]. rewrite before_char_app by assumption. rewrite skipn_S_app.
  rewrite !strndup_le by assumption.
  destruct user as [|u0 user]; [|reflexivity].
  destruct pwd as [|p0 pwd]; [reflexivity|].
  cbn [app] in *.
  replace (1 <? len (58 :: p0 :: pwd)) with true by (rewrite !len_cons; pose proof (len_nonneg _ pwd); lia). reflexivity.
Qed.

Lemma token_parse : forall bio token a, b64_bio bio -> c_str_max 512 token -> token <> [] ->
  mg_parse_auth_hdr_token bio (32 :: b64_encode token) a = Ok (with_mode (with_token a token) AUTH_TOKEN).
Proof.
  intros bio token a Hb [[Ht1 Ht2] Ht3] Hne. unfold mg_parse_auth_hdr_token.
  cbn [drop_while]. change (isspace 32) with true. cbv iota. rewrite b64_no_space by assumption.
  rewrite decode_line by (assumption || lia). cbn [bind].
  assert (0 < len token) by (destruct token; [congruence|rewrite len_cons; pose proof (len_nonneg _ token); lia]).
  replace ((len token <=? 0) || (1024 <=? len token)) with false by lia.
  rewrite wr_tail by lia. cbn [bind].
  rw_bind (cstr_pad token (Z.to_nat (1024 - len token)) Ht2 ltac:(lia)).
  rewrite strndup_le by assumption.
  destruct (b64_encode token) as [|c t] eqn:E; [|reflexivity].
  exfalso. destruct token as [|x [|y [|z t]]]; [congruence|discriminate|discriminate|discriminate].
Qed.

(** ** Whole header *)
Lemma basic_header : forall bio user pwd uid, b64_bio bio -> c_str_max 255 user -> c_str_max 255 pwd ->
  user <> [] -> ~ In 58 user ->
  mg_parse_auth_header bio AUTH_BASIC (Some (basic_value user pwd)) est_create_ah uid =
  Ok (HDR_GOOD,
      {| ah_mode := AUTH_BASIC; ah_user := Some user; ah_pwd := Some pwd; ah_uri := None; ah_cnonce := None;
         ah_qop := None; ah_nc := None; ah_nonce := None; ah_response := None; ah_token := None |},
      user ++ repeat 0 (Z.to_nat (256 - len user))).
Proof.
  intros bio user pwd uid Hb Hu Hp Hne Hc. unfold mg_parse_auth_header, basic_value.
  change (strncaseeq 7 (str "Basic " ++ b64_encode (user ++ str ":" ++ pwd)) (str "Digest ")) with false.
  change (strncaseeq 6 (str "Basic " ++ b64_encode (user ++ str ":" ++ pwd)) (str "Basic ")) with true.
  cbv iota. cbn [mode_eqb negb].
  change (skipn 6 (str "Basic " ++ b64_encode (user ++ str ":" ++ pwd))) with (b64_encode (user ++ str ":" ++ pwd)).
  rewrite basic_parse by assumption. cbn [bind].
  destruct user as [|u0 user]; [congruence|].
  cbn [with_mode with_pwd with_user ah_mode ah_user mode_eqb is_some andb negb]. cbv iota. destruct Hu as [_ Hu].
  rewrite strncpy_fits by lia. do 2 f_equal.
  replace (Z.to_nat (256 - len (u0 :: user))) with (S (Z.to_nat (256 - len (u0 :: user) - 1))) by lia. reflexivity.
Qed.

Lemma basic_no_user : forall bio pwd uid, b64_bio bio -> c_str_max 255 pwd ->
  exists a, mg_parse_auth_header bio AUTH_BASIC (Some (basic_value [] pwd)) est_create_ah uid = Ok (HDR_BAD, a, uid).
Proof.
  intros bio pwd uid Hb Hp. unfold mg_parse_auth_header, basic_value.
  change (strncaseeq 7 (str "Basic " ++ b64_encode ([] ++ str ":" ++ pwd)) (str "Digest ")) with false.
  change (strncaseeq 6 (str "Basic " ++ b64_encode ([] ++ str ":" ++ pwd)) (str "Basic ")) with true.
  cbv iota. cbn [mode_eqb negb].
  change (skipn 6 (str "Basic " ++ b64_encode ([] ++ str ":" ++ pwd))) with (b64_encode ([] ++ str ":" ++ pwd)).
  rewrite basic_parse; [|assumption| |assumption|intros []].
  - cbn [bind]. destruct pwd; eexists; reflexivity.
  - split; [split; [constructor|intros []]|change (len (@nil Z)) with 0; lia].
Qed.

Lemma token_header : forall bio token uid, b64_bio bio -> c_str_max 512 token -> token <> [] ->
  mg_parse_auth_header bio AUTH_TOKEN (Some (bearer_value token)) est_create_ah uid =
  Ok (HDR_GOOD,
      {| ah_mode := AUTH_TOKEN; ah_user := None; ah_pwd := None; ah_uri := None; ah_cnonce := None;
         ah_qop := None; ah_nc := None; ah_nonce := None; ah_response := None; ah_token := Some token |},
      uid).
Proof.
  intros bio token uid Hb Ht Hne. unfold mg_parse_auth_header, bearer_value.
  change (strncaseeq 7 (str "Bearer " ++ b64_encode token) (str "Digest ")) with false.
  change (strncaseeq 6 (str "Bearer " ++ b64_encode token) (str "Basic ")) with false.
  change (strncaseeq 7 (str "Bearer " ++ b64_encode token) (str "Bearer ")) with true.
  cbv iota. cbn [mode_eqb negb].
  change (skipn 6 (str "Bearer " ++ b64_encode token)) with (32 :: b64_encode token).
  rewrite token_parse by assumption. reflexivity.
Qed.

(** ** Client *)
Lemma snprintf_fits : forall t n, len t < n -> snprintf_str t n = t.
Proof.
  intros t n H. unfold snprintf_str. pose proof (len_nonneg _ t). replace (n <=? 0) with false by lia.
  apply firstn_all2. unfold len in *. lia.
Qed.

Lemma b64_line_len : forall d, len (b64_encode d) = 4 * ((len d + 2) / 3).
Proof. intro d. pose proof (bio_text_len' d false) as H. exact H. Qed.

Lemma encode_line_c : forall d n, d <> [] -> all_bytes d -> b64_text_len (len d) false < n ->
  (' (_, blk) <- est_base64_encode d (repeat 0 (Z.to_nat n)) n false ;; cstr blk) = Ok (b64_encode d).
Proof.
  intros d n Hne Hd Hn. pose proof (len_nonneg _ d).
  assert (0 <= b64_text_len (len d) false) by (unfold b64_text_len; Z.to_euclidean_division_equations; lia).
  rewrite encode_fits' by (assumption || (rewrite len_repeat; lia)). cbn [bind].
  apply cstr_app_nul. now apply b64_no_nul.
Qed.

Definition printable (c : Z) : Prop := 32 <= c <= 126.

Lemma header_value_pre : forall p d, Forall printable p -> hd 0 p <> 32 -> p <> [] -> all_bytes d ->
  header_value (p ++ b64_encode d).
Proof.
  intros p d H1 H2 H3 H4. split.
  - apply Forall_app. split; [exact H1|]. eapply Forall_impl; [|apply b64_encode_chars; assumption].
    unfold b64_printable. intros. lia.
  - destruct p; [congruence|]. exact H2.
Qed.

Definition used_cred (userid password : bytes) (c : cred) (user pwd : bytes) : Prop :=
  (userid = user /\ password = pwd /\ ~ (user = [] /\ pwd = []))
  \/ (userid = [] /\ password = [] /\ cr_user c = Some user /\ cr_pwd c = Some pwd).

Lemma client_cred_used : forall userid password c user pwd, used_cred userid password c user pwd ->
  len user <= 255 -> len pwd <= 255 -> client_cred userid password c = (user, pwd).
Proof.
  intros userid password c user pwd [(-> & -> & Hn)|(-> & -> & E1 & E2)] Hu Hp; unfold client_cred.
  - destruct user; [|reflexivity]. destruct pwd; [|reflexivity]. exfalso. tauto.
  - rewrite E1, E2. cbn [retrieved]. replace (255 <? len user) with false by lia.
    replace (255 <? len pwd) with false by lia. reflexivity.
Qed.

Lemma client_basic : forall md5 userid password realm s_nonce c rnd hdr uri user pwd,
  used_cred userid password c user pwd -> c_str_max 255 user -> c_str_max 255 pwd -> len hdr <= 4400 ->
  est_client_add_auth_hdr md5 AUTH_BASIC userid password realm s_nonce c rnd hdr uri
  = Ok (hdr ++ render_header (str "Authorization", basic_value user pwd))
  /\ header_value (basic_value user pwd).
Proof.
  intros md5 userid password realm s_nonce c rnd hdr uri user pwd Hc [[Hu1 Hu2] Hu3] [[Hp1 Hp2] Hp3] Hh.
  assert (Hall : all_bytes (user ++ [58] ++ pwd)).
  { unfold all_bytes in *. rewrite !Forall_app. split; [assumption|]. split; [repeat constructor; unfold is_byte; lia|assumption]. }
  split.
  2:{ unfold basic_value. apply header_value_pre; [repeat constructor; unfold printable; cbn; lia|discriminate|discriminate|exact Hall]. }
  unfold est_client_add_auth_hdr. rewrite (client_cred_used _ _ _ _ _ Hc) by assumption.
  assert (Hl : len (user ++ [58] ++ pwd) = len user + 1 + len pwd) by (rewrite !len_app; change (len [58]) with 1; lia).
  pose proof (len_nonneg _ user). pose proof (len_nonneg _ pwd).
  rewrite (snprintf_fits (user ++ [58] ++ pwd)) by lia.
  assert (Hne : user ++ [58] ++ pwd <> []) by (destruct user; discriminate).
  assert (Hb : b64_text_len (len (user ++ [58] ++ pwd)) false < 1020).
  { unfold b64_text_len. rewrite Hl. Z.to_euclidean_division_equations; lia. }
  rewrite encode_fits' by (assumption || (rewrite len_repeat; lia)). cbn [bind].
  rewrite cstr_app_nul by now apply b64_no_nul. cbn [bind].
  rewrite snprintf_fits.
  - unfold render_header, basic_value. cbn [fst snd]. unfold CRLF. rewrite <- !app_assoc. reflexivity.
  - rewrite !len_app, b64_line_len, Hl. change (len (str "Authorization: Basic ")) with 21.
    change (len [13; 10]) with 2. Z.to_euclidean_division_equations; lia.
Qed.

Lemma client_token : forall md5 userid password realm s_nonce c rnd hdr uri token,
  cr_token c = Some token -> c_str_max 512 token -> token <> [] -> len hdr <= 4400 ->
  est_client_add_auth_hdr md5 AUTH_TOKEN userid password realm s_nonce c rnd hdr uri
  = Ok (hdr ++ render_header (str "Authorization", bearer_value token))
  /\ header_value (bearer_value token).
Proof.
  intros md5 userid password realm s_nonce c rnd hdr uri token Hc [[Ht1 Ht2] Ht3] Hne Hh.
  split.
  2:{ unfold bearer_value. apply header_value_pre; [repeat constructor; unfold printable; cbn; lia|discriminate|discriminate|exact Ht1]. }
  unfold est_client_add_auth_hdr. rewrite Hc. cbv zeta. replace (512 <? len token) with false by lia.
  pose proof (len_nonneg _ token).
  assert (Hb : b64_text_len (len token) false < 1024).
  { unfold b64_text_len. Z.to_euclidean_division_equations; lia. }
  rewrite encode_fits' by (assumption || (rewrite len_repeat; lia)). cbn [bind].
  rewrite cstr_app_nul by now apply b64_no_nul. cbn [bind].
  rewrite snprintf_fits.
  - unfold render_header, bearer_value. cbn [fst snd]. unfold CRLF. rewrite <- !app_assoc. reflexivity.
  - rewrite !len_app, b64_line_len. change (len (str "Authorization: Bearer ")) with 22.
    change (len [13; 10]) with 2. Z.to_euclidean_division_equations; lia.
Qed.

(** A token that is missing or too long is refused by the server. *)
Lemma client_token_none : forall md5 userid password realm s_nonce c rnd hdr uri,
  (cr_token c = None \/ exists t, cr_token c = Some t /\ (t = [] \/ 512 < len t)) -> len hdr <= 4400 ->
  est_client_add_auth_hdr md5 AUTH_TOKEN userid password realm s_nonce c rnd hdr uri
  = Ok (hdr ++ str "Authorization: Bearer " ++ CRLF).
Proof.
  intros md5 userid password realm s_nonce c rnd hdr uri Hc Hh. unfold est_client_add_auth_hdr.
  set (token := match cr_token c with None => [] | Some t => if 512 <? len t then [] else t end).
  assert (Ht : token = []).
  { unfold token. destruct Hc as [->|(t & -> & [->|Hl])]; [reflexivity|reflexivity|].
    replace (512 <? len t) with true by lia. reflexivity. }
  rewrite Ht. cbv zeta. set (r := repeat 0 (Z.to_nat 1024)).
  assert (He : est_base64_encode [] r 1024 false = Ok (0, r)) by reflexivity. rewrite He. cbn [bind].
  assert (Hcs : cstr r = Ok []) by reflexivity. rewrite Hcs. cbn [bind app].
  rewrite snprintf_fits; [reflexivity|]. rewrite len_app. change (len (str "Authorization: Bearer ")) with 22.
  change (len [13;10]) with 2. lia.
Qed.
