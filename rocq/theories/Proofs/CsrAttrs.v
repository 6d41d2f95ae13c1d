(** CSR attributes: proofs. *)
From Coq Require Import String ZArith List Bool Lia ZifyBool ZifyNat.
From Verif Require Import Base Model.EstErr Model.Codec Spec.Base64 Spec.Der Model.CsrAttrs Proofs.Codec Proofs.Der.
Import ListNotations.
Open Scope Z_scope.
Ltac Zify.zify_post_hook ::= Z.to_euclidean_division_equations.

Lemma ders_nonempty : forall l, Forall plain l -> l <> [] -> ders l <> [].
Proof.
  intros [|t l] _ N; [congruence|]. rewrite ders_cons. destruct t; cbn [der]; unfold der_header; discriminate.
Qed.
Lemma der_header_len_val : forall n, 0 <= n < 65536 ->
  len (der_header 0 true 16 n) = if n <? 128 then 2 else if n <? 256 then 3 else 4.
Proof.
  intros n H. unfold der_header, der_length. destruct (n <? 128) eqn:E; [reflexivity|]. cbn [be_digits].
  replace (n <=? 0) with false by lia. destruct (n <? 256) eqn:E2.
  - replace (n / 256 <=? 0) with true by lia. reflexivity.
  - replace (n / 256 <=? 0) with false by lia. replace (n / 256 / 256 <=? 0) with true by lia. reflexivity.
Qed.

Section Attrs.
Variable G : bytes -> option header.
Hypothesis HG : asn1_reader G.

Lemma G_bounds : forall b h, all_bytes b -> G b = Some h ->
  2 <= h_octets h /\ 0 <= h_len h /\ h_octets h + h_len h <= len b.
Proof. intros b h Hb H. apply starts_bounds. now apply (asn1_sound _ HG). Qed.
(** The three parts of a buffer that starts with an element. *)
Lemma G_parts : forall b h, all_bytes b -> G b = Some h ->
  let hd := firstn (Z.to_nat (h_octets h)) b in
  let q := skipn (Z.to_nat (h_octets h)) b in
  let c := firstn (Z.to_nat (h_len h)) q in
  let q' := skipn (Z.to_nat (h_len h)) q in
  b = hd ++ c ++ q' /\ q = c ++ q' /\ len hd = h_octets h /\ len c = h_len h /\ all_bytes c /\ all_bytes q /\ all_bytes q'
  /\ (length q' <= length q)%nat /\ (length q < length b)%nat.
Proof.
  intros b h Hb H hd q c q'. destruct (G_bounds _ _ Hb H) as (B1 & B2 & B3).
  assert (Q : all_bytes q) by now apply skipn_bytes.
  assert (LQ : len q = len b - h_octets h) by (unfold q; rewrite len_skipn; lia).
  unfold c, q'. rewrite firstn_skipn. unfold hd. fold q. unfold q at 1. rewrite firstn_skipn.
  repeat split.
  - rewrite len_firstn. lia.
  - rewrite len_firstn. lia.
  - now apply firstn_bytes.
  - exact Q.
  - now apply skipn_bytes.
  - rewrite skipn_length. lia.
  - unfold len in *. lia.
Qed.

(** ** The sanity test *)
Lemma sanity_fuel : forall n m p pop, all_bytes p -> (length p < n)%nat -> (length p < m)%nat ->
  sanity_loop G n p pop = sanity_loop G m p pop.
Proof.
  induction n as [|n IH]; intros m p pop Hp Hn Hm; [lia|]. destruct m as [|m]; [lia|]. cbn [sanity_loop].
  destruct p as [|x p]; [reflexivity|]. destruct (G (x :: p)) as [h|] eqn:E; [|reflexivity].
  destruct (G_parts _ _ Hp E) as (_ & _ & _ & _ & _ & Q1 & Q2 & L1 & L2).
  destruct (h_tag h =? 6); [destruct (d2i_oid _); apply IH; auto; lia|].
  destruct (_ || _); apply IH; auto; lia.
Qed.
Lemma sanity_ok : forall n p pop, all_bytes p -> (length p < n)%nat -> exists r, sanity_loop G n p pop = Ok r.
Proof.
  induction n as [|n IH]; intros p pop Hp Hn; [lia|]. cbn [sanity_loop].
  destruct p as [|x p]; [eauto|]. destruct (G (x :: p)) as [h|] eqn:E; [|eauto].
  destruct (G_parts _ _ Hp E) as (_ & _ & _ & _ & _ & Q1 & Q2 & L1 & L2).
  destruct (h_tag h =? 6); [destruct (d2i_oid _); apply IH; auto; lia|].
  destruct (_ || _); apply IH; auto; lia.
Qed.
(** What the loop reads. *)
Lemma sanity_reads : forall n p pop pop', all_bytes p -> (length p < n)%nat -> sanity_loop G n p pop = Ok (Some pop') ->
  exists os, reads p os /\ pop' = pop || existsb (fun c => beq c challengePassword) os.
Proof.
  induction n as [|n IH]; intros p pop pop' Hp Hn H; [lia|]. cbn [sanity_loop] in H.
  destruct p as [|x p].
  { inversion H. exists []. split; [constructor|]. cbn. now rewrite orb_false_r. }
  destruct (G (x :: p)) as [h|] eqn:E; [|discriminate].
  destruct (G_parts _ _ Hp E) as (P1 & P2 & P3 & P4 & P5 & Q1 & Q2 & L1 & L2).
  pose proof (asn1_sound _ HG _ _ Hp E) as SW.
  set (hd := firstn (Z.to_nat (h_octets h)) (x :: p)) in *.
  set (q := skipn (Z.to_nat (h_octets h)) (x :: p)) in *.
  set (c := firstn (Z.to_nat (h_len h)) q) in *. set (q' := skipn (Z.to_nat (h_len h)) q) in *.
  destruct (h_tag h =? 6) eqn:T6.
  - destruct (d2i_oid c) eqn:D.
    + apply IH in H as (os & R & ->); [|auto|lia]. exists (c :: os). split.
      * rewrite P1. eapply reads_oid with (h := h); auto; [now rewrite <- P1|lia|now apply d2i_valid].
      * cbn [existsb]. change challengePassword with chpw_oid. now rewrite <- orb_assoc.
    + apply IH in H as (os & R & ->); [|auto|lia]. exists os. split; [|reflexivity].
      rewrite P1. eapply reads_bad with (h := h); auto; [now rewrite <- P1|lia| |now rewrite <- P2].
      intro V. apply d2i_valid in V; [congruence|auto].
  - destruct ((h_tag h =? 17) || (h_tag h =? 16)) eqn:T.
    + apply IH in H as (os & R & ->); [|auto|lia]. exists os. split; [|reflexivity].
      rewrite P1, <- P2. eapply reads_open with (h := h); auto; [|lia]. now rewrite P2, <- P1.
    + apply IH in H as (os & R & ->); [|auto|lia]. exists os. split; [|reflexivity].
      rewrite P1. eapply reads_skip with (h := h); auto; [now rewrite <- P1|lia..].
Qed.

(** On well-formed data. *)
Definition walk p pop := sanity_loop G (S (length p)) p pop.
Lemma len_hdr_pos : forall cls cons tag n, (2 <= length (der_header cls cons tag n))%nat.
Proof. intros. pose proof (der_header_len cls cons tag n). unfold len in H. lia. Qed.
Lemma skipn_hdr : forall cls cons tag n (r : bytes),
  skipn (Z.to_nat (len (der_header cls cons tag n))) (der_header cls cons tag n ++ r) = r.
Proof. intros. unfold len. rewrite Nat2Z.id, skipn_app, skipn_all, Nat.sub_diag. reflexivity. Qed.
Lemma firstn_len : forall (a b : bytes), firstn (Z.to_nat (len a)) (a ++ b) = a.
Proof. intros. unfold len. rewrite Nat2Z.id, firstn_app, firstn_all, Nat.sub_diag. cbn. apply app_nil_r. Qed.
Lemma skipn_len : forall (a b : bytes), skipn (Z.to_nat (len a)) (a ++ b) = b.
Proof. intros. unfold len. rewrite Nat2Z.id, skipn_app, skipn_all, Nat.sub_diag. reflexivity. Qed.

Lemma walk_eq : forall p h pop, all_bytes p -> G p = Some h ->
  let q := skipn (Z.to_nat (h_octets h)) p in
  let c := firstn (Z.to_nat (h_len h)) q in
  let q' := skipn (Z.to_nat (h_len h)) q in
  walk p pop = if h_tag h =? 6 then if d2i_oid c then walk q' (pop || beq c challengePassword) else walk q pop
               else if (h_tag h =? 17) || (h_tag h =? 16) then walk q pop else walk q' pop.
Proof.
  intros p h pop Hp E q c q'. destruct (G_parts _ _ Hp E) as (_ & _ & _ & _ & _ & Q1 & Q2 & L1 & L2).
  fold q in Q1, L1, L2. fold q' in Q2, L1. unfold walk at 1. destruct p as [|x p]; [cbn in L2; lia|].
  cbn [sanity_loop]. rewrite E. fold q c q'. unfold walk.
  destruct (h_tag h =? 6); [destruct (d2i_oid c); apply sanity_fuel; auto; lia|].
  destruct (_ || _); apply sanity_fuel; auto; lia.
Qed.
Lemma walk_step : forall cls cons tag c rest pop, 0 <= cls < 4 -> 0 <= tag < 31 -> len c < 2 ^ 31 ->
  all_bytes c -> all_bytes rest ->
  walk (der_header cls cons tag (len c) ++ c ++ rest) pop =
    if tag =? 6 then if d2i_oid c then walk rest (pop || beq c challengePassword) else walk (c ++ rest) pop
    else if (tag =? 17) || (tag =? 16) then walk (c ++ rest) pop else walk rest pop.
Proof.
  intros cls cons tag c rest pop Hc Ht Hl Bc Br.
  pose proof (asn1_reads _ HG cls cons tag c rest Hc Ht Hl) as E.
  rewrite (walk_eq _ _ pop) with (2 := E).
  - cbn [h_octets h_len h_tag]. rewrite skipn_hdr, firstn_len, skipn_len. reflexivity.
  - apply Forall_app. split; [|now apply Forall_app]. apply der_header_bytes; auto. apply len_nonneg.
Qed.
Lemma d2i_of_valid : forall c, all_bytes c -> valid_oid c -> d2i_oid c = true.
Proof. intros. now apply d2i_valid. Qed.
Lemma existsb_app' : forall A (f : A -> bool) a b, existsb f (a ++ b) = existsb f a || existsb f b.
Proof. intros. apply existsb_app. Qed.

Definition has_pop (os : list bytes) := existsb (fun c => beq c challengePassword) os.
Lemma walk_tree : forall t rest pop, plain t -> len (der t) < 2 ^ 31 -> all_bytes rest ->
  walk (der t ++ rest) pop = walk rest (pop || has_pop (oids t)).
Proof.
  induction t as [cls tag c|cls tag items IH] using tree_rect'; intros rest pop P L Br.
  - cbn [plain der oids] in *. destruct P as (-> & Ht & N16 & N17 & Bc & Hv).
    rewrite len_app in L. pose proof (der_header_len 0 false tag (len c)) as HL.
    rewrite <- app_assoc, walk_step by (auto; lia). cbn [Z.eqb andb].
    destruct (tag =? 6) eqn:T6.
    + rewrite d2i_of_valid by (auto; apply Hv; lia). unfold has_pop. cbn [existsb]. now rewrite orb_false_r.
    + replace ((tag =? 17) || (tag =? 16)) with false by lia. cbn. now rewrite orb_false_r.
  - apply plain_node in P as (-> & Ht & P). cbn [der oids] in *. fold (ders items) in *.
    rewrite len_app in L. pose proof (der_header_len 0 true tag (len (ders items))) as HL.
    rewrite <- app_assoc, walk_step; auto; try lia; [|now apply plains_bytes].
    replace (tag =? 6) with false by lia. replace ((tag =? 17) || (tag =? 16)) with true by lia.
    assert (L' : len (ders items) < 2 ^ 31) by lia. clear L HL. revert pop.
    induction items as [|t items IHi]; intro pop.
    + cbn. now rewrite orb_false_r.
    + inversion P; subst. inversion IH; subst. rewrite ders_cons, len_app in L'. rewrite ders_cons, <- app_assoc.
      pose proof (len_nonneg _ (ders items)). pose proof (len_nonneg _ (der t)).
      rewrite H3; auto; [|lia|apply Forall_app; split; [now apply plains_bytes|exact Br]].
      rewrite IHi; auto; [|lia]. f_equal. cbn [map concat]. unfold has_pop. now rewrite existsb_app', orb_assoc.
Qed.
Lemma walk_trees : forall l rest pop, Forall plain l -> len (ders l) < 2 ^ 31 -> all_bytes rest ->
  walk (ders l ++ rest) pop = walk rest (pop || has_pop (concat (map oids l))).
Proof.
  induction l as [|t l IH]; intros rest pop P L Br; [cbn; now rewrite orb_false_r|].
  inversion P; subst. rewrite ders_cons, len_app in L. rewrite ders_cons, <- app_assoc.
  pose proof (len_nonneg _ (ders l)). pose proof (len_nonneg _ (der t)).
  rewrite walk_tree; auto; [|lia|apply Forall_app; split; [now apply plains_bytes|exact Br]].
  rewrite IH; auto; [|lia]. f_equal. cbn [map concat]. unfold has_pop. now rewrite existsb_app', orb_assoc.
Qed.

Theorem sanity_never_ub : forall d, all_bytes d -> exists e pop, est_asn1_sanity_test G d = Ok (e, pop).
Proof.
  intros d Hd. unfold est_asn1_sanity_test. destruct (len d <? 2); [eauto|].
  destruct (sanity_ok (S (length d)) d false Hd ltac:(lia)) as [[pop|] ->]; cbn [bind]; [|eauto].
  destruct (_ <? len d); eauto.
Qed.
Theorem sanity_sound : forall d pop, all_bytes d -> est_asn1_sanity_test G d = Ok (EST_ERR_NONE, pop) ->
  exists os, reads d os /\ (pop = true <-> In challengePassword os)
    /\ 2 <= len d <= (if pop then 1035 else 1024).
Proof.
  intros d pop Hd H. unfold est_asn1_sanity_test in H. destruct (len d <? 2) eqn:E2; [discriminate|].
  destruct (sanity_loop G (S (length d)) d false) as [[p|]|] eqn:E; cbn [bind] in H; [|discriminate..].
  apply sanity_reads in E as (os & R & ->); [|auto|lia]. cbn [orb] in H. exists os. split; [exact R|].
  set (b := existsb _ os) in *. destruct ((if b then 1035 else 1024) <? len d) eqn:El; [discriminate|].
  inversion H; subst pop. split; [|destruct b; lia]. unfold b. rewrite existsb_exists. split.
  - intros (c & I & Q). apply beq_eq in Q. now subst.
  - intro I. exists challengePassword. split; [exact I|]. now apply beq_eq.
Qed.
Theorem sanity_complete : forall ts, Forall plain ts -> 2 <= len (ders ts) ->
  len (ders ts) <= (if has_pop (concat (map oids ts)) then 1035 else 1024) ->
  est_asn1_sanity_test G (ders ts) = Ok (EST_ERR_NONE, has_pop (concat (map oids ts))).
Proof.
  intros ts P L2 L. unfold est_asn1_sanity_test. replace (len (ders ts) <? 2) with false by lia.
  fold (walk (ders ts) false). rewrite <- (app_nil_r (ders ts)) at 1. rewrite walk_trees; auto; [|destruct (has_pop _); lia|constructor].
  cbn [orb walk sanity_loop length bind].
  replace ((if has_pop (concat (map oids ts)) then 1035 else 1024) <? len (ders ts)) with false by (destruct (has_pop _); lia).
  reflexivity.
Qed.

(** Reading on: data that was read completely can be followed by more. *)
Lemma walk_extend : forall n p pop pop' more, (length p < n)%nat -> all_bytes p -> all_bytes more ->
  walk p pop = Ok (Some pop') -> walk (p ++ more) pop = walk more pop'.
Proof.
  induction n as [|n IH]; intros p pop pop' more Hn Hp Hm H; [lia|].
  destruct p as [|x p]; [cbn in H; inversion H; reflexivity|].
  destruct (G (x :: p)) as [h|] eqn:E; [|unfold walk in H; cbn [sanity_loop] in H; rewrite E in H; discriminate].
  pose proof (asn1_extends _ HG _ _ more E) as E'.
  assert (Hpm : all_bytes ((x :: p) ++ more)) by (now apply Forall_app).
  rewrite (walk_eq _ _ _ Hp E) in H. rewrite (walk_eq _ _ _ Hpm E').
  destruct (G_parts _ _ Hp E) as (P1 & P2 & P3 & P4 & P5 & Q1 & Q2 & L1 & L2).
  set (hd := firstn (Z.to_nat (h_octets h)) (x :: p)) in *.
  set (q := skipn (Z.to_nat (h_octets h)) (x :: p)) in *.
  set (c := firstn (Z.to_nat (h_len h)) q) in *. set (q' := skipn (Z.to_nat (h_len h)) q) in *.
  assert (S1 : skipn (Z.to_nat (h_octets h)) ((x :: p) ++ more) = q ++ more).
  { rewrite P1, <- P2, <- app_assoc, <- P3. apply skipn_len. }
  rewrite S1.
  assert (F1 : firstn (Z.to_nat (h_len h)) (q ++ more) = c) by (rewrite P2, <- app_assoc, <- P4; apply firstn_len).
  assert (S2 : skipn (Z.to_nat (h_len h)) (q ++ more) = q' ++ more) by (rewrite P2, <- app_assoc, <- P4; apply skipn_len).
  rewrite F1, S2. cbn [length] in Hn, L2.
  destruct (h_tag h =? 6); [destruct (d2i_oid c); apply IH; auto; lia|].
  destruct (_ || _); apply IH; auto; lia.
Qed.

(** ** Collecting the OBJECT IDENTIFIERs of a certificate request *)
Notation parse := (csr_asn1_parse G).
Notation inner := (csr_asn1_inner G).

Lemma parse_S : forall n' acc p left length, parse (S n') acc p left length =
    if left <=? 0 then Ok (1, acc, p)
    else
      g <- get_object G p length ;;
      match g with
      | None => Ok (0, acc, p)
      | Some h =>
        let q := skipn (Z.to_nat (h_octets h)) p in
        let left1 := left - h_octets h in
        let length1 := length - h_octets h in
        let c := firstn (Z.to_nat (h_len h)) q in
        let q' := skipn (Z.to_nat (h_len h)) q in
        let left2 := left1 - h_len h in
        let length2 := length1 - h_len h in
        if h_cons h then
          if length1 <? h_len h then Ok (0, acc, q)
          else if h_indef h && (h_len h =? 0) then
            ' (r, acc1, q1) <- parse n' acc q left1 left1 ;;
            if r =? 0 then Ok (0, acc1, q1)
            else if (r =? 2) || (left1 - (len q - len q1) <=? 0) then Ok (1, acc1, q1)
            else parse n' acc1 q1 (left1 - (len q - len q1)) length2
          else
            ' (r, acc1, q1) <- inner n' acc q (h_len h) (h_len h) ;;
            if r =? 0 then Ok (0, acc1, q1)
            else parse n' acc1 q1 (left1 - (len q - len q1)) length2
        else if negb (h_class h =? 0) then parse n' acc q' left2 length2
        else if h_tag h =? 6 then
          if d2i_oid c then parse n' (acc ++ [c]) q' left2 length2
          else Ok (0, acc, q)
        else if h_tag h =? 0 then Ok (2, acc, q')
        else parse n' acc q' left2 length2
      end.
Proof. reflexivity. Qed.
Lemma inner_S : forall n' acc p left elen, inner (S n') acc p left elen =
    if left <=? 0 then Ok (1, acc, p)
    else
      ' (r, acc1, q) <- parse n' acc p elen elen ;;
      if r =? 0 then Ok (0, acc1, q)
      else inner n' acc1 q (left - (len p - len q)) elen.
Proof. reflexivity. Qed.

Lemma get_object_some : forall p omax h, all_bytes p -> get_object G p omax = Ok (Some h) ->
  2 <= h_octets h /\ 0 <= h_len h /\ h_octets h + h_len h <= omax /\ omax <= len p
  /\ starts_with (firstn (Z.to_nat omax) p) h.
Proof.
  intros p omax h Hp H. unfold get_object in H. destruct (omax <=? len p) eqn:E; [|discriminate].
  inversion H as [H1]. pose proof (asn1_sound _ HG _ _ (firstn_bytes _ _ Hp) H1) as SW.
  destruct (starts_bounds _ _ SW) as (B1 & B2 & B3). rewrite len_firstn in B3. repeat split; auto; lia.
Qed.
(** A suffix: what is left of the data. *)
Definition suffix (q p : bytes) := exists pre, p = pre ++ q.
Lemma suffix_refl : forall p, suffix p p.
Proof. intro p. now exists []. Qed.
Lemma suffix_trans : forall a b c, suffix a b -> suffix b c -> suffix a c.
Proof. intros a b c [x ->] [y ->]. exists (y ++ x). now rewrite app_assoc. Qed.
Lemma suffix_skipn : forall n p, suffix (skipn n p) p.
Proof. intros. exists (firstn n p). now rewrite firstn_skipn. Qed.
Lemma suffix_bytes : forall q p, suffix q p -> all_bytes p -> all_bytes q.
Proof. intros q p [x ->] H. now apply Forall_app in H. Qed.
Lemma suffix_len : forall q p, suffix q p -> (length q <= length p)%nat.
Proof. intros q p [x ->]. rewrite app_length. lia. Qed.

Lemma contains_suffix : forall q p c, suffix q p -> contains_oid q c -> contains_oid p c.
Proof.
  intros q p c [x ->] (V & pre & ids & ls & post & -> & I & L). split; [exact V|].
  exists (x ++ pre), ids, ls, post. rewrite <- !app_assoc. auto.
Qed.
Lemma contains_first : forall p n h, all_bytes p -> starts_with (firstn n p) h -> h_tag h = 6 -> h_class h = 0 ->
  h_cons h = false ->
  let c := firstn (Z.to_nat (h_len h)) (skipn (Z.to_nat (h_octets h)) p) in
  valid_oid c -> contains_oid p c.
Proof.
  intros p n h Hp (ids & ls & rest & E & L & I & R & K) T Cl Co c V. split; [exact V|].
  assert (Ep : p = (ids ++ ls) ++ rest ++ skipn n p).
  { rewrite <- (firstn_skipn n p) at 1. rewrite E, <- !app_assoc. reflexivity. }
  assert (Ec : c = firstn (Z.to_nat (h_len h)) rest).
  { unfold c. rewrite Ep at 1. rewrite <- L, skipn_len, firstn_app.
    replace (Z.to_nat (h_len h) - length rest)%nat with 0%nat by (unfold len in R; lia).
    cbn. apply app_nil_r. }
  exists [], ids, ls, (skipn (Z.to_nat (h_len h)) rest ++ skipn n p). cbn [app].
  rewrite T, Cl, Co in I. split; [|split; [exact I|]].
  - rewrite Ec. rewrite Ep at 1. rewrite <- app_assoc. do 2 f_equal. rewrite app_assoc, firstn_skipn. reflexivity.
  - assert (Lc : len c = h_len h) by (rewrite Ec, len_firstn; lia). rewrite Lc.
    destruct (h_indef h); [destruct K as (_ & _ & K); congruence|exact K].
Qed.

(** What parsing any data at all does, if it does not run over the end. *)
Lemma parse_facts : forall n,
  (forall acc p left length r acc' q, all_bytes p -> parse n acc p left length = Ok (r, acc', q) ->
     suffix q p /\ (0 < left -> r <> 0 -> (S (List.length q) < List.length p)%nat) /\
     exists new, acc' = acc ++ new /\ Forall (contains_oid p) new)
  /\ (forall acc p left elen r acc' q, all_bytes p -> inner n acc p left elen = Ok (r, acc', q) ->
     suffix q p /\ exists new, acc' = acc ++ new /\ Forall (contains_oid p) new).
Proof.
  assert (CS : forall q p new, suffix q p -> Forall (contains_oid q) new -> Forall (contains_oid p) new).
  { intros q p new S. apply Forall_impl. intro c. now apply contains_suffix. }
  induction n as [|n [IHp IHi]]; split; intros acc p left length r acc' q Hp H; try discriminate.
  - rewrite parse_S in H. cbv zeta in H. destruct (left <=? 0) eqn:El.
    { inversion H; subst. split; [apply suffix_refl|]. split; [lia|]. exists []. rewrite app_nil_r. auto. }
    destruct (get_object G p length) as [[h|]|] eqn:E; cbn [bind] in H; [| |discriminate].
    2:{ inversion H; subst. split; [apply suffix_refl|]. split; [lia|]. exists []. rewrite app_nil_r. auto. }
    destruct (get_object_some _ _ _ Hp E) as (B1 & B2 & B3 & B4 & SW).
    set (q0 := skipn (Z.to_nat (h_octets h)) p) in *. set (c := firstn (Z.to_nat (h_len h)) q0) in *.
    set (q1 := skipn (Z.to_nat (h_len h)) q0) in *.
    assert (S0 : suffix q0 p) by apply suffix_skipn.
    assert (S1 : suffix q1 p) by (eapply suffix_trans; [apply suffix_skipn|exact S0]).
    assert (L0 : (S (List.length q0) < List.length p)%nat) by (unfold q0, len in *; rewrite skipn_length; lia).
    assert (L1 : (S (List.length q1) < List.length p)%nat) by (unfold q1; rewrite skipn_length; lia).
    assert (NIL : forall q2, suffix q2 p -> (S (List.length q2) < List.length p)%nat -> suffix q2 p /\ (0 < left -> r <> 0 -> (S (List.length q2) < List.length p)%nat)
              /\ exists new, acc = acc ++ new /\ Forall (contains_oid p) new).
    { intros q2 ? ?. split; [auto|]. split; [auto|]. exists []. rewrite app_nil_r. auto. }
    assert (REC : forall a pre q2 l2 len2, suffix q2 p -> (S (List.length q2) < List.length p)%nat -> a = acc ++ pre -> Forall (contains_oid p) pre ->
              parse n a q2 l2 len2 = Ok (r, acc', q) ->
              suffix q p /\ (0 < left -> r <> 0 -> (S (List.length q) < List.length p)%nat) /\ exists new, acc' = acc ++ new /\ Forall (contains_oid p) new).
    { intros a pre q2 l2 len2 Sq Lq -> Fp Q. apply IHp in Q as (Q1 & _ & new & -> & Q3); [|eapply suffix_bytes; eauto].
      split; [eapply suffix_trans; eauto|]. split; [intros _ _; apply suffix_len in Q1; lia|].
      exists (pre ++ new). rewrite app_assoc. split; [reflexivity|]. apply Forall_app. split; [auto|]. exact (CS _ _ _ Sq Q3). }
    destruct (h_cons h) eqn:Ec.
    { destruct (length - h_octets h <? h_len h) eqn:Eb; [inversion H; subst; now apply NIL|].
      destruct (h_indef h && (h_len h =? 0)).
      - destruct (parse n acc q0 (left - h_octets h) (left - h_octets h)) as [[[r1 a1] q2]|] eqn:E1; cbn [bind] in H; [|discriminate].
        apply IHp in E1 as (Q1 & _ & new & -> & Q3); [|eapply suffix_bytes; eauto].
        assert (Sq : suffix q2 p) by (eapply suffix_trans; eauto).
        assert (Lq : (S (List.length q2) < List.length p)%nat) by (apply suffix_len in Q1; lia).
        assert (Fn : Forall (contains_oid p) new) by exact (CS _ _ _ S0 Q3).
        destruct (r1 =? 0); [inversion H; subst; split; [auto|]; split; [auto|]; eauto|].
        destruct (_ || _); [inversion H; subst; split; [auto|]; split; [auto|]; eauto|].
        eapply REC; eauto.
      - destruct (inner n acc q0 (h_len h) (h_len h)) as [[[r1 a1] q2]|] eqn:E1; cbn [bind] in H; [|congruence].
        apply IHi in E1 as (Q1 & new & -> & Q3); [|eapply suffix_bytes; eauto].
        assert (Sq : suffix q2 p) by (eapply suffix_trans; eauto).
        assert (Lq : (S (List.length q2) < List.length p)%nat) by (apply suffix_len in Q1; lia).
        assert (Fn : Forall (contains_oid p) new) by exact (CS _ _ _ S0 Q3).
        destruct (r1 =? 0); [inversion H; subst; split; [auto|]; split; [auto|]; eauto|].
        eapply REC; eauto. }
    destruct (negb (h_class h =? 0)) eqn:Ecl; [apply (REC acc []) in H; auto; now rewrite app_nil_r|].
    destruct (h_tag h =? 6) eqn:T6.
    { destruct (d2i_oid c) eqn:Ed; [|inversion H; subst; now apply NIL].
      apply (REC (acc ++ [c]) [c]) in H; auto. constructor; [|constructor].
      assert (Bc : all_bytes c) by (apply firstn_bytes; eapply suffix_bytes; eauto).
      eapply contains_first; eauto; [lia|lia|]. now apply d2i_valid. }
    destruct (h_tag h =? 0); [inversion H; subst; now apply NIL|].
    apply (REC acc []) in H; auto. now rewrite app_nil_r.
  - rewrite inner_S in H. destruct (left <=? 0) eqn:El.
    { inversion H; subst. split; [apply suffix_refl|]. exists []. rewrite app_nil_r. auto. }
    destruct (parse n acc p length length) as [[[r1 a1] q2]|] eqn:E1; cbn [bind] in H; [|discriminate].
    apply IHp in E1 as (Q1 & _ & new & -> & Q3); [|auto].
    destruct (r1 =? 0); [inversion H; subst; split; [auto|]; eauto|].
    apply IHi in H as (Q4 & new2 & -> & Q5); [|eapply suffix_bytes; eauto].
    split; [eapply suffix_trans; eauto|]. exists (new ++ new2). rewrite app_assoc. split; [reflexivity|].
    apply Forall_app. split; [auto|]. exact (CS _ _ _ Q1 Q5).
Qed.

(** The fuel is enough: more would not change the outcome. *)
Lemma parse_fuel : forall n,
  (forall m acc p left length, all_bytes p -> (List.length p < n)%nat -> (List.length p < m)%nat ->
     parse n acc p left length = parse m acc p left length)
  /\ (forall m acc p left elen, all_bytes p -> (left <= elen) -> (S (List.length p) < n)%nat -> (S (List.length p) < m)%nat ->
     inner n acc p left elen = inner m acc p left elen).
Proof.
  induction n as [|n [IHp IHi]]; split; intros m acc p left length Hp; [intros; lia..|intros Hn Hm|intros Hle Hn Hm];
    (destruct m as [|m]; [lia|]).
  - rewrite !parse_S. cbv zeta. destruct (left <=? 0) eqn:El; [reflexivity|].
    destruct (get_object G p length) as [[h|]|] eqn:E; cbn [bind]; [|reflexivity..].
    destruct (get_object_some _ _ _ Hp E) as (B1 & B2 & B3 & B4 & SW).
    set (q0 := skipn (Z.to_nat (h_octets h)) p) in *. set (c := firstn (Z.to_nat (h_len h)) q0) in *.
    set (q1 := skipn (Z.to_nat (h_len h)) q0) in *.
    assert (S0 : suffix q0 p) by apply suffix_skipn.
    assert (S1 : suffix q1 p) by (eapply suffix_trans; [apply suffix_skipn|exact S0]).
    assert (L0 : (S (List.length q0) < List.length p)%nat) by (unfold q0, len in *; rewrite skipn_length; lia).
    assert (L1 : (S (List.length q1) < List.length p)%nat) by (unfold q1; rewrite skipn_length; lia).
    assert (A0 : all_bytes q0) by (eapply suffix_bytes; eauto). assert (A1 : all_bytes q1) by (eapply suffix_bytes; eauto).
    destruct (h_cons h).
    { destruct (length - h_octets h <? h_len h); [reflexivity|]. destruct (h_indef h && (h_len h =? 0)).
      - rewrite (IHp m) by (auto; lia). destruct (parse m acc q0 _ _) as [[[r1 a1] q2]|] eqn:E1; cbn [bind]; [|reflexivity].
        apply parse_facts in E1 as (Q1 & _); [|auto].
        destruct (r1 =? 0); [reflexivity|]. destruct (_ || _); [reflexivity|].
        apply IHp; [eapply suffix_bytes; eauto|apply suffix_len in Q1; lia..].
      - rewrite (IHi m) by (auto; lia). destruct (inner m acc q0 _ _) as [[[r1 a1] q2]|] eqn:E1; cbn [bind]; [|reflexivity].
        apply parse_facts in E1 as (Q1 & _); [|auto].
        destruct (r1 =? 0); [reflexivity|].
        apply IHp; [eapply suffix_bytes; eauto|apply suffix_len in Q1; lia..]. }
    destruct (negb (h_class h =? 0)); [apply IHp; auto; lia|].
    destruct (h_tag h =? 6); [destruct (d2i_oid c); [|reflexivity]; apply IHp; auto; lia|].
    destruct (h_tag h =? 0); [reflexivity|]. apply IHp; auto; lia.
  - rewrite !inner_S. destruct (left <=? 0) eqn:El; [reflexivity|].
    rewrite (IHp m) by (auto; lia). destruct (parse m acc p length length) as [[[r1 a1] q2]|] eqn:E1; cbn [bind]; [|reflexivity].
    apply parse_facts in E1 as (Q1 & Q2 & _); [|auto]. destruct (r1 =? 0) eqn:Er; [reflexivity|].
    specialize (Q2 ltac:(lia) ltac:(lia)).
    apply IHi; [eapply suffix_bytes; eauto| |lia..]. unfold len. lia.
Qed.

(** Well-formed requests: exactly the OBJECT IDENTIFIERs of the tree. *)
Lemma get_object_tree : forall cls cons tag c rest tail, 0 <= cls < 4 -> 0 <= tag < 31 -> len c < 2 ^ 31 ->
  get_object G ((der_header cls cons tag (len c) ++ c ++ rest) ++ tail) (len (der_header cls cons tag (len c) ++ c ++ rest))
  = Ok (Some {| h_octets := len (der_header cls cons tag (len c)); h_len := len c; h_tag := tag; h_class := cls; h_cons := cons; h_indef := false |}).
Proof.
  intros. unfold get_object. rewrite firstn_len. rewrite (asn1_reads _ HG) by assumption.
  pose proof (len_nonneg _ tail). rewrite (len_app _ (der_header cls cons tag (len c) ++ c ++ rest) tail).
  match goal with |- context [?a <=? ?b] => replace (a <=? b) with true by lia end. reflexivity.
Qed.
Lemma parse_trees : forall k n l acc rest, (length (ders l) < k)%nat -> (length (ders l) < n)%nat -> Forall ordinary l -> len (ders l) < 2 ^ 31 ->
  parse n acc (ders l ++ rest) (len (ders l)) (len (ders l)) = Ok (1, acc ++ concat (map oids l), rest).
Proof.
  induction k as [|k IH]; intros n l acc rest Hk Hn O L; [lia|]. destruct n as [|n]; [lia|].
  destruct l as [|t l]; [cbn; now rewrite app_nil_r|]. inversion O as [|? ? Ot Ol]; subst.
  rewrite ders_cons in *. rewrite len_app, app_length in *.
  pose proof (len_nonneg _ (ders l)) as Ll. pose proof (len_nonneg _ (der t)) as Lt. pose proof (len_nonneg _ rest) as Lr.
  rewrite parse_S. cbv zeta. cbn [map concat].
  destruct t as [cls tag c|cls tag items].
  - cbn [der ordinary oids] in *. destruct Ot as (Hc & Ht & Bc & N0 & Hv).
    pose proof (der_header_len cls false tag (len c)) as HL. set (hd := der_header cls false tag (len c)) in *.
    rewrite len_app in *. rewrite app_length in *. pose proof (len_nonneg _ c) as Lc.
    replace (len hd + len c + len (ders l) <=? 0) with false by lia.
    replace (((hd ++ c) ++ ders l) ++ rest) with ((hd ++ c ++ ders l) ++ rest) by (now rewrite <- !app_assoc).
    replace (len hd + len c + len (ders l)) with (len (hd ++ c ++ ders l)) by (rewrite !len_app; lia).
    unfold hd at 1 2. rewrite get_object_tree by (auto; lia). fold hd. cbn [bind h_octets h_len h_tag h_class h_cons h_indef].
    rewrite <- !app_assoc, skipn_len, firstn_len, skipn_len.
    replace (len (hd ++ c ++ ders l) - len hd - len c) with (len (ders l)) by (rewrite !len_app; lia).
    assert (Hk' : (length (ders l) < k)%nat /\ (length (ders l) < n)%nat) by (unfold len in *; lia). destruct Hk' as [Hk' Hn'].
    destruct (cls =? 0) eqn:E0; cbn [negb andb].
    + destruct (tag =? 6) eqn:E6.
      * rewrite d2i_of_valid by (auto; apply Hv; lia). rewrite IH by (auto; lia). cbn [app].
        now rewrite <- app_assoc.
      * replace (tag =? 0) with false by lia. cbn [app]. apply IH; auto; lia.
    + cbn [app]. apply IH; auto; lia.
  - apply ordinary_node in Ot as (Hc & Ht & Oi). cbn [der oids] in *. fold (ders items) in *.
    pose proof (der_header_len cls true tag (len (ders items))) as HL. set (hd := der_header cls true tag (len (ders items))) in *.
    rewrite len_app in *. rewrite app_length in *. pose proof (len_nonneg _ (ders items)) as Lc.
    replace (len hd + len (ders items) + len (ders l) <=? 0) with false by lia.
    replace (((hd ++ ders items) ++ ders l) ++ rest) with ((hd ++ ders items ++ ders l) ++ rest) by (now rewrite <- !app_assoc).
    replace (len hd + len (ders items) + len (ders l)) with (len (hd ++ ders items ++ ders l)) by (rewrite !len_app; lia).
    unfold hd at 1 2. rewrite get_object_tree by (auto; lia). fold hd. cbn [bind h_octets h_len h_tag h_class h_cons h_indef].
    rewrite <- !app_assoc, skipn_len.
    replace (len (hd ++ ders items ++ ders l) - len hd - len (ders items)) with (len (ders l)) by (rewrite !len_app; lia).
    replace (len (hd ++ ders items ++ ders l) - len hd <? len (ders items)) with false by (rewrite !len_app; lia).
    cbn [andb].
    assert (IN : inner n acc (ders items ++ ders l ++ rest) (len (ders items)) (len (ders items))
                 = Ok (1, acc ++ concat (map oids items), ders l ++ rest)).
    { destruct n as [|n']; [unfold len in *; lia|]. rewrite inner_S. destruct (len (ders items) <=? 0) eqn:E0.
      - assert (ders items = []) as E by (apply len_0_nil; lia). rewrite E.
        destruct items as [|t2 items]; [cbn; now rewrite app_nil_r|]. exfalso. rewrite ders_cons in E.
        apply app_eq_nil in E as [E _]. destruct t2; discriminate E.
      - rewrite IH by (auto; unfold len in *; lia). cbn [bind Z.eqb].
        replace (len (ders items) - (len (ders items ++ ders l ++ rest) - len (ders l ++ rest))) with 0 by (rewrite len_app; lia).
        destruct n'; [unfold len in *; lia|]. reflexivity. }
    rewrite IN. cbn [bind Z.eqb].
    replace (len (hd ++ ders items ++ ders l) - len hd - (len (ders items ++ ders l ++ rest) - len (ders l ++ rest)))
      with (len (ders l)) by (rewrite !len_app; lia).
    assert (Hk' : (length (ders l) < k)%nat /\ (length (ders l) < n)%nat) by (unfold len in *; lia). destruct Hk' as [Hk' Hn'].
    rewrite IH by (auto; lia). now rewrite <- app_assoc.
Qed.

(** ** The comparison *)
Section Text.
Variable oid_text : bytes -> bytes.
Notation loop := (attrs_loop G oid_text).
Definition named (csr : list bytes) (c : bytes) : bool :=
  beq c challengePassword || existsb (fun o => beq (attr_text oid_text o) (attr_text oid_text c)) csr.

Lemma loop_fuel : forall n m p csr, all_bytes p -> (length p < n)%nat -> (length p < m)%nat ->
  loop n p csr = loop m p csr.
Proof.
  induction n as [|n IH]; intros m p csr Hp Hn Hm; [lia|]. destruct m as [|m]; [lia|]. cbn [attrs_loop].
  destruct p as [|x p]; [reflexivity|]. destruct (G (x :: p)) as [h|] eqn:E; [|reflexivity].
  destruct (G_parts _ _ Hp E) as (_ & _ & _ & _ & _ & Q1 & Q2 & L1 & L2).
  destruct (h_tag h =? 6).
  - destruct (negb _); [reflexivity|]. destruct (beq _ _); [apply IH; auto; lia|].
    destruct (existsb _ _); [apply IH; auto; lia|reflexivity].
  - destruct (_ || _); apply IH; auto; lia.
Qed.
Lemma loop_ok : forall n p csr, all_bytes p -> (length p < n)%nat -> exists e, loop n p csr = Ok e.
Proof.
  induction n as [|n IH]; intros p csr Hp Hn; [lia|]. cbn [attrs_loop].
  destruct p as [|x p]; [eauto|]. destruct (G (x :: p)) as [h|] eqn:E; [|eauto].
  destruct (G_parts _ _ Hp E) as (_ & _ & _ & _ & _ & Q1 & Q2 & L1 & L2).
  destruct (h_tag h =? 6).
  - destruct (negb _); [eauto|]. destruct (beq _ _); [apply IH; auto; lia|].
    destruct (existsb _ _); [apply IH; auto; lia|eauto].
  - destruct (_ || _); apply IH; auto; lia.
Qed.
Lemma loop_reads : forall n p csr, all_bytes p -> (length p < n)%nat -> loop n p csr = Ok EST_ERR_NONE ->
  exists os, reads p os /\ forall c, In c os -> named csr c = true.
Proof.
  induction n as [|n IH]; intros p csr Hp Hn H; [lia|]. cbn [attrs_loop] in H.
  destruct p as [|x p]; [exists []; split; [constructor|intros ? []]|].
  destruct (G (x :: p)) as [h|] eqn:E; [|discriminate].
  destruct (G_parts _ _ Hp E) as (P1 & P2 & P3 & P4 & P5 & Q1 & Q2 & L1 & L2).
  pose proof (asn1_sound _ HG _ _ Hp E) as SW.
  set (hd := firstn (Z.to_nat (h_octets h)) (x :: p)) in *.
  set (q := skipn (Z.to_nat (h_octets h)) (x :: p)) in *.
  set (c := firstn (Z.to_nat (h_len h)) q) in *. set (q' := skipn (Z.to_nat (h_len h)) q) in *.
  destruct (h_tag h =? 6) eqn:T6.
  - destruct (negb (d2i_oid c)) eqn:D; [discriminate|].
    assert (N : named csr c = true /\ loop n q' csr = Ok EST_ERR_NONE).
    { unfold named. change challengePassword with chpw_oid. destruct (beq c chpw_oid); [auto|].
      destruct (existsb _ _); [auto|discriminate]. }
    destruct N as [N H']. apply IH in H' as (os & R & F); [|auto|lia]. exists (c :: os). split.
    + rewrite P1. eapply reads_oid with (h := h); auto; [now rewrite <- P1|lia|].
      apply d2i_valid; [auto|]. destruct (d2i_oid c); [reflexivity|discriminate].
    + intros d [<-|I]; auto.
  - destruct ((h_tag h =? 17) || (h_tag h =? 16)) eqn:T.
    + apply IH in H as (os & R & F); [|auto|lia]. exists os. split; [|exact F].
      rewrite P1, <- P2. eapply reads_open with (h := h); auto; [|lia]. now rewrite P2, <- P1.
    + apply IH in H as (os & R & F); [|auto|lia]. exists os. split; [|exact F].
      rewrite P1. eapply reads_skip with (h := h); auto; [now rewrite <- P1|lia..].
Qed.
Definition check p csr := loop (S (length p)) p csr.
Lemma check_eq : forall p h csr, all_bytes p -> G p = Some h ->
  let q := skipn (Z.to_nat (h_octets h)) p in
  let c := firstn (Z.to_nat (h_len h)) q in
  let q' := skipn (Z.to_nat (h_len h)) q in
  check p csr = if h_tag h =? 6 then if d2i_oid c then if named csr c then check q' csr else Ok EST_ERR_CSR_ATTR_MISSING
                                     else Ok EST_ERR_UNKNOWN
               else if (h_tag h =? 17) || (h_tag h =? 16) then check q csr else check q' csr.
Proof.
  intros p h csr Hp E q c q'. destruct (G_parts _ _ Hp E) as (_ & _ & _ & _ & _ & Q1 & Q2 & L1 & L2).
  fold q in Q1, L1, L2. fold q' in Q2, L1. unfold check at 1. destruct p as [|x p]; [cbn in L2; lia|].
  cbn [attrs_loop]. rewrite E. fold q c q'. unfold check, named. change challengePassword with chpw_oid.
  destruct (h_tag h =? 6).
  - destruct (d2i_oid c); cbn [negb]; [|reflexivity].
    destruct (beq c chpw_oid); cbn [orb]; [apply loop_fuel; auto; lia|].
    destruct (existsb _ csr); [apply loop_fuel; auto; lia|reflexivity].
  - destruct (_ || _); apply loop_fuel; auto; lia.
Qed.
Lemma check_step : forall cls cons tag c rest csr, 0 <= cls < 4 -> 0 <= tag < 31 -> len c < 2 ^ 31 ->
  all_bytes c -> all_bytes rest ->
  check (der_header cls cons tag (len c) ++ c ++ rest) csr =
    if tag =? 6 then if d2i_oid c then if named csr c then check rest csr else Ok EST_ERR_CSR_ATTR_MISSING else Ok EST_ERR_UNKNOWN
    else if (tag =? 17) || (tag =? 16) then check (c ++ rest) csr else check rest csr.
Proof.
  intros cls cons tag c rest csr Hc Ht Hl Bc Br.
  pose proof (asn1_reads _ HG cls cons tag c rest Hc Ht Hl) as E.
  rewrite (check_eq _ _ csr) with (2 := E).
  - cbn [h_octets h_len h_tag]. rewrite skipn_hdr, firstn_len, skipn_len. reflexivity.
  - apply Forall_app. split; [|now apply Forall_app]. apply der_header_bytes; auto. apply len_nonneg.
Qed.
Lemma check_tree : forall t rest csr, plain t -> len (der t) < 2 ^ 31 -> all_bytes rest ->
  check (der t ++ rest) csr = if forallb (named csr) (oids t) then check rest csr else Ok EST_ERR_CSR_ATTR_MISSING.
Proof.
  induction t as [cls tag c|cls tag items IH] using tree_rect'; intros rest csr P L Br.
  - cbn [plain der oids] in *. destruct P as (-> & Ht & N16 & N17 & Bc & Hv).
    rewrite len_app in L. pose proof (der_header_len 0 false tag (len c)) as HL.
    rewrite <- app_assoc, check_step by (auto; lia). cbn [Z.eqb andb].
    destruct (tag =? 6) eqn:T6.
    + rewrite d2i_of_valid by (auto; apply Hv; lia). cbn [forallb]. now rewrite andb_true_r.
    + replace ((tag =? 17) || (tag =? 16)) with false by lia. reflexivity.
  - apply plain_node in P as (-> & Ht & P). cbn [der oids] in *. fold (ders items) in *.
    rewrite len_app in L. pose proof (der_header_len 0 true tag (len (ders items))) as HL.
    rewrite <- app_assoc, check_step; auto; try lia; [|now apply plains_bytes].
    replace (tag =? 6) with false by lia. replace ((tag =? 17) || (tag =? 16)) with true by lia.
    assert (L' : len (ders items) < 2 ^ 31) by lia. clear L HL.
    induction items as [|t items IHi]; [reflexivity|].
    inversion P; subst. inversion IH; subst. rewrite ders_cons, len_app in L'. rewrite ders_cons, <- app_assoc.
    pose proof (len_nonneg _ (ders items)). pose proof (len_nonneg _ (der t)).
    rewrite H3; auto; [|lia|apply Forall_app; split; [now apply plains_bytes|exact Br]].
    rewrite IHi; auto; [|lia]. cbn [map concat]. rewrite forallb_app. destruct (forallb _ (oids t)); reflexivity.
Qed.
Lemma check_trees : forall l rest csr, Forall plain l -> len (ders l) < 2 ^ 31 -> all_bytes rest ->
  check (ders l ++ rest) csr = if forallb (named csr) (concat (map oids l)) then check rest csr else Ok EST_ERR_CSR_ATTR_MISSING.
Proof.
  induction l as [|t l IH]; intros rest csr P L Br; [reflexivity|].
  inversion P; subst. rewrite ders_cons, len_app in L. rewrite ders_cons, <- app_assoc.
  pose proof (len_nonneg _ (ders l)). pose proof (len_nonneg _ (der t)).
  rewrite check_tree; auto; [|lia|apply Forall_app; split; [now apply plains_bytes|exact Br]].
  rewrite IH; auto; [|lia]. cbn [map concat]. rewrite forallb_app. destruct (forallb _ (oids t)); reflexivity.
Qed.
End Text.

(** ** With base64 *)
Section Bio.
Variable bio : bool -> bytes -> Z -> bytes.
Hypothesis HB : b64_bio bio.

Lemma decoded : forall s n d, est_base64_decode bio false s (len s * 2) = Ok (n, d) -> n = len d /\ all_bytes d /\ 0 <= n <= 2 * len s.
Proof.
  intros s n d H. pose proof (len_nonneg _ s). apply (decode_bounded bio HB) in H as (H1 & H2 & H3); [|lia].
  split; [exact H2|]. split; [exact H3|lia].
Qed.
Definition blank (s : bytes) := forall c, In c s -> isspace c = true.
Lemma blank_dec : forall s, blank s \/ exists c, In c s /\ isspace c = false.
Proof.
  induction s as [|c s [IH|(x & I & E)]]; [left; intros ? []| |right; exists x; split; [now right|exact E]].
  destruct (isspace c) eqn:E; [left; intros x [<-|I]; auto|right; exists c; split; [now left|exact E]].
Qed.
Lemma decode_or_blank : forall s, (exists n d, est_base64_decode bio false s (len s * 2) = Ok (n, d)) \/ blank s.
Proof.
  intro s. destruct (blank_dec s) as [B|B]; [now right|left].
  destruct (decode_safe bio false s (len s * 2)) as [[n d] E]; eauto.
Qed.
Lemma decode_text : forall s d, all_bytes d -> d <> [] -> s = b64_encode d \/ s = b64_wrap (b64_encode d) ->
  est_base64_decode bio false s (len s * 2) = Ok (len d, d) /\ 4 <= len s.
Proof.
  intros s d Bd Nd Hs.
  assert (L : 4 * ((len d + 2) / 3) <= len s).
  { destruct Hs as [->| ->]; [rewrite b64_encode_len; lia|]. rewrite (b64_wrap_len _ _ (le_n _)), b64_encode_len.
    pose proof (len_nonneg _ d). lia. }
  assert (0 < len d) by (destruct d; [congruence|rewrite len_cons; pose proof (len_nonneg _ d); lia]).
  split; [|lia]. destruct Hs as [->| ->]; [apply (decode_line bio HB)|apply (decode_wrapped bio HB)]; auto; lia.
Qed.

Theorem parse_safe : forall s, est_asn1_parse_attributes G bio s = UB <-> 4 <= len s /\ blank s.
Proof.
  intro s. unfold est_asn1_parse_attributes. destruct (len s <? 4) eqn:E; [split; [discriminate|lia]|].
  destruct (blank_dec s) as [B|B].
  - rewrite decode_blank; [|pose proof (len_nonneg _ s); lia|exact B]. split; [intro; split; [lia|exact B]|reflexivity].
  - destruct (decode_safe bio false s (len s * 2)) as [[n d] ED]; auto. rewrite ED. cbn [bind].
    destruct (decoded _ _ _ ED) as (_ & Bd & _). split.
    + intro H. exfalso. destruct (n <=? 0); [discriminate|]. destruct (sanity_never_ub d Bd) as (er & pop & Q). congruence.
    + intros [_ B2]. exfalso. destruct B as (c & I & Q). rewrite B2 in Q by assumption. discriminate.
Qed.
Theorem parse_sound : forall s pop, est_asn1_parse_attributes G bio s = Ok (EST_ERR_NONE, pop) ->
  exists d os, est_base64_decode bio false s (2 * len s) = Ok (len d, d) /\ reads d os
    /\ (pop = true <-> In challengePassword os) /\ 2 <= len d <= (if pop then 1035 else 1024).
Proof.
  intros s pop H. unfold est_asn1_parse_attributes in H. destruct (len s <? 4); [discriminate|].
  destruct (est_base64_decode bio false s (len s * 2)) as [[n d]|] eqn:ED; cbn [bind] in H; [|discriminate].
  destruct (decoded _ _ _ ED) as (-> & Bd & _). destruct (len d <=? 0); [discriminate|].
  apply sanity_sound in H as (os & R & P & L); [|exact Bd]. exists d, os. rewrite Z.mul_comm. auto.
Qed.
Theorem parse_complete : forall ts s, Forall plain ts -> ts <> [] ->
  len (ders ts) <= (if has_pop (concat (map oids ts)) then 1035 else 1024) ->
  s = b64_encode (ders ts) \/ s = b64_wrap (b64_encode (ders ts)) ->
  est_asn1_parse_attributes G bio s = Ok (EST_ERR_NONE, has_pop (concat (map oids ts))).
Proof.
  intros ts s P N L Hs.
  assert (L2 : 2 <= len (ders ts)).
  { destruct ts as [|t ts]; [congruence|]. rewrite ders_cons, len_app. pose proof (len_nonneg _ (ders ts)).
    destruct t; cbn [der]; rewrite len_app; match goal with |- context [der_header ?a ?b ?c ?d] => pose proof (der_header_len a b c d) end;
      match goal with |- context [len ?x + len ?y + _] => pose proof (len_nonneg _ y) end; lia. }
  destruct (decode_text s (ders ts)) as [E L4]; auto; [now apply plains_bytes|intro E; rewrite E in L2; cbn in L2; lia|].
  unfold est_asn1_parse_attributes. replace (len s <? 4) with false by lia. rewrite E. cbn [bind].
  replace (len (ders ts) <=? 0) with false by lia. now apply sanity_complete.
Qed.

(** ** Adding challengePassword *)
Lemma seq_header : forall n, 0 <= n < 65536 -> sequence_header n = der_header 0 true 16 n.
Proof.
  intros n H. unfold sequence_header, der_header, der_length. cbn [Z.mul Z.add].
  destruct (256 <=? n) eqn:E2.
  - replace (n <? 128) with false by lia. cbn [be_digits].
    replace (n <=? 0) with false by lia. replace (n / 256 <=? 0) with false by lia.
    replace (n / 256 / 256 <=? 0) with true by lia. reflexivity.
  - destruct (128 <=? n) eqn:E1.
    + replace (n <? 128) with false by lia. cbn [be_digits].
      replace (n <=? 0) with false by lia. replace (n / 256 <=? 0) with true by lia. cbn. repeat f_equal. lia.
    + replace (n <? 128) with true by lia. reflexivity.
Qed.
Lemma b64_encode_no_nul : forall d, all_bytes d -> no_nul (b64_encode d).
Proof.
  intros d H I. pose proof (b64_encode_txt d H) as F. rewrite Forall_forall in F. specialize (F _ I).
  unfold b64_txt in F. lia.
Qed.
Lemma sequence_header_bytes : forall n, 0 <= n -> all_bytes (sequence_header n) /\ 2 <= len (sequence_header n) <= 4.
Proof.
  intros n H. unfold sequence_header, all_bytes, is_byte. destruct (256 <=? n) eqn:E2; [|destruct (128 <=? n) eqn:E1];
    (split; [repeat constructor; lia|cbn; lia]).
Qed.
Lemma add_value : forall s d h, est_base64_decode bio false s (len s * 2) = Ok (len d, d) -> all_bytes d -> 0 < len d ->
  G d = Some h -> h_tag h = 16 ->
  let content := skipn (Z.to_nat (h_octets h)) d in
  est_add_challengePassword G bio s = Ok (EST_ERR_NONE, b64_encode (sequence_header (len content + 11) ++ content ++ hex_chpw)).
Proof.
  intros s d h ED Bd Ld E T content. unfold est_add_challengePassword. rewrite ED. cbn [bind].
  replace (len d <=? 0) with false by lia. rewrite E. replace (h_tag h =? 16) with true by lia. cbn [negb]. cbv zeta. fold content.
  assert (Bc : all_bytes content) by now apply skipn_bytes. pose proof (len_nonneg _ content) as Lc.
  destruct (sequence_header_bytes (len content + 11) ltac:(lia)) as [Bh Lh].
  set (nd := sequence_header (len content + 11) ++ content ++ hex_chpw).
  assert (Bn : all_bytes nd) by (apply Forall_app; split; [exact Bh|]; apply Forall_app; split; [exact Bc|];
     unfold hex_chpw, all_bytes, is_byte; repeat constructor; lia).
  assert (Ln : len nd = len (sequence_header (len content + 11)) + len content + 11) by (unfold nd; rewrite !len_app; change (len hex_chpw) with 11; lia).
  rewrite (Z.mul_comm (len nd) 2). rewrite encode_twice; [|lia|rewrite len_repeat; unfold len; lia].
  cbn [bind]. pose proof (b64_encode_len nd). replace (len (b64_encode nd) <=? 0) with false by lia.
  rewrite cstr_app_nul by now apply b64_encode_no_nul. reflexivity.
Qed.
Lemma add_value_not_seq : forall s d h, est_base64_decode bio false s (len s * 2) = Ok (len d, d) -> 0 < len d ->
  G d = Some h -> h_tag h <> 16 -> est_add_challengePassword G bio s = Ok (EST_ERR_BAD_ASN1_HEX, []).
Proof.
  intros s d h ED Ld E T. unfold est_add_challengePassword. rewrite ED. cbn [bind].
  replace (len d <=? 0) with false by lia. rewrite E. replace (h_tag h =? 16) with false by lia. reflexivity.
Qed.

(** Attributes in order: [items] followed by challengePassword. *)
Theorem add_tree : forall items s, Forall plain items -> len (der (Node 0 16 items)) < 2 ^ 15 ->
  s = b64_encode (der (Node 0 16 items)) \/ s = b64_wrap (b64_encode (der (Node 0 16 items))) ->
  est_add_challengePassword G bio s
  = Ok (EST_ERR_NONE, b64_encode (der (Node 0 16 (items ++ [Prim 0 6 challengePassword])))).
Proof.
  intros items s P L Hs. cbn [der] in L, Hs. fold (ders items) in L, Hs.
  set (hd := der_header 0 true 16 (len (ders items))) in *. rewrite len_app in L.
  pose proof (der_header_len 0 true 16 (len (ders items))) as HL. fold hd in HL. pose proof (len_nonneg _ (ders items)) as Li.
  assert (B : all_bytes (hd ++ ders items)).
  { apply Forall_app. split; [apply der_header_bytes; lia|now apply plains_bytes]. }
  destruct (decode_text s (hd ++ ders items)) as [E L4]; auto; [unfold hd, der_header; discriminate|].
  pose proof (asn1_reads _ HG 0 true 16 (ders items) [] ltac:(lia) ltac:(lia) ltac:(lia)) as EG. rewrite app_nil_r in EG. fold hd in EG.
  rewrite (add_value s _ _ E B) with (2 := EG); [|rewrite len_app; lia|reflexivity].
  cbn [h_octets]. rewrite skipn_len. apply f_equal, f_equal, f_equal.
  cbn [der]. fold (ders (items ++ [Prim 0 6 challengePassword])). rewrite ders_app.
  change (ders [Prim 0 6 challengePassword]) with hex_chpw.
  rewrite len_app. change (len hex_chpw) with 11. rewrite seq_header by lia. reflexivity.
Qed.

(** Whatever list was accepted without challengePassword: either it does not
    start with a SEQUENCE and is refused, or its content is kept. *)
Theorem add_accepted : forall s, est_asn1_parse_attributes G bio s = Ok (EST_ERR_NONE, false) ->
  exists d h, est_base64_decode bio false s (2 * len s) = Ok (len d, d) /\ starts_with d h
    /\ (h_tag h <> 16 -> est_add_challengePassword G bio s = Ok (EST_ERR_BAD_ASN1_HEX, []))
    /\ (h_tag h = 16 -> let content := skipn (Z.to_nat (h_octets h)) d in
          let new := der_header 0 true 16 (len content + 11) ++ content ++ der (Prim 0 6 challengePassword) in
          est_add_challengePassword G bio s = Ok (EST_ERR_NONE, b64_encode new)
          /\ (len new <= 1035 -> est_asn1_parse_attributes G bio (b64_encode new) = Ok (EST_ERR_NONE, true))).
Proof.
  intros s H. unfold est_asn1_parse_attributes in H. destruct (len s <? 4); [discriminate|].
  destruct (est_base64_decode bio false s (len s * 2)) as [[n d]|] eqn:ED; cbn [bind] in H; [|discriminate].
  destruct (decoded _ _ _ ED) as (-> & Bd & _). destruct (len d <=? 0) eqn:E0; [discriminate|].
  unfold est_asn1_sanity_test in H. destruct (len d <? 2) eqn:E2; [discriminate|].
  fold (walk d false) in H. destruct (walk d false) as [[pop|]|] eqn:W; cbn [bind] in H; [|discriminate..].
  destruct (_ <? len d) eqn:El in H; [discriminate|]. inversion H; subst pop. cbn in El.
  destruct (G d) as [h|] eqn:E.
  2:{ unfold walk in W. destruct d; [cbn in E0; lia|]. cbn [sanity_loop] in W. rewrite E in W. discriminate. }
  exists d, h. rewrite (Z.mul_comm 2). split; [exact ED|]. split; [now apply (asn1_sound _ HG)|].
  split; [intro; eapply add_value_not_seq; eauto; lia|].
  intros T content new. pose proof (add_value s d h ED Bd ltac:(lia) E T) as AV. cbv zeta in AV. fold content in AV.
  assert (Bc : all_bytes content) by now apply skipn_bytes. pose proof (len_nonneg _ content) as Lc.
  assert (Lcd : len content <= len d) by (unfold content; rewrite len_skipn; lia).
  rewrite seq_header in AV by lia. change hex_chpw with (der (Prim 0 6 challengePassword)) in AV. split; [exact AV|].
  intro Ln.
  assert (Bp : all_bytes (der (Prim 0 6 challengePassword))) by (apply plain_bytes; cbn; repeat split; try lia; [|intros _; apply chpw_valid];
     unfold challengePassword, all_bytes, is_byte; repeat constructor; lia).
  assert (Bh : all_bytes (der_header 0 true 16 (len content + 11))) by (apply der_header_bytes; lia).
  assert (Bn : all_bytes new) by (apply Forall_app; split; [exact Bh|]; apply Forall_app; split; [exact Bc|exact Bp]).
  pose proof (der_header_len 0 true 16 (len content + 11)) as HL.
  assert (L2 : 13 <= len new) by (unfold new; rewrite !len_app; change (len (der (Prim 0 6 challengePassword))) with 11; lia).
  destruct (decode_text (b64_encode new) new) as [EN L4]; auto; [intro Q; rewrite Q in L2; cbn in L2; lia|].
  unfold est_asn1_parse_attributes. replace (len (b64_encode new) <? 4) with false by lia. rewrite EN. cbn [bind].
  replace (len new <=? 0) with false by lia. unfold est_asn1_sanity_test. replace (len new <? 2) with false by lia.
  fold (walk new false).
  assert (W1 : walk content false = Ok (Some false)).
  { rewrite (walk_eq _ _ _ Bd E) in W. rewrite T in W. cbn [Z.eqb orb] in W. exact W. }
  assert (W2 : walk new false = Ok (Some true)).
  { pose proof (walk_step 0 true 16 (content ++ der (Prim 0 6 challengePassword)) [] false) as WS.
    rewrite app_nil_r in WS. rewrite len_app in WS. change (len (der (Prim 0 6 challengePassword))) with 11 in WS.
    unfold new. rewrite WS; [|lia|lia|lia|apply Forall_app; split; [exact Bc|exact Bp]|constructor].
    cbn [Z.eqb orb]. rewrite (walk_extend (S (length content)) content false false); auto. 
    rewrite <- (app_nil_r (der (Prim 0 6 challengePassword))). rewrite walk_tree; [reflexivity| |reflexivity|constructor].
    cbn. repeat split; try lia; [|intros _; apply chpw_valid]. unfold challengePassword, all_bytes, is_byte; repeat constructor; lia. }
  rewrite W2. cbn [bind]. replace (1035 <? len new) with false by lia. reflexivity.
Qed.

Lemma add_safe : forall s p, est_asn1_parse_attributes G bio s = Ok (EST_ERR_NONE, p) -> est_add_challengePassword G bio s <> UB.
Proof.
  intros s p H. unfold est_asn1_parse_attributes in H. destruct (len s <? 4); [discriminate|].
  destruct (est_base64_decode bio false s (len s * 2)) as [[n d]|] eqn:ED; cbn [bind] in H; [|discriminate].
  destruct (decoded _ _ _ ED) as (-> & Bd & _). destruct (len d <=? 0) eqn:E0; [discriminate|].
  unfold est_asn1_sanity_test in H. destruct (len d <? 2) eqn:E2; [discriminate|].
  fold (walk d false) in H. destruct (walk d false) as [[pop|]|] eqn:W; cbn [bind] in H; [|discriminate..].
  destruct (G d) as [h|] eqn:E.
  2:{ unfold walk in W. destruct d; [cbn in E0; lia|]. cbn [sanity_loop] in W. rewrite E in W. discriminate. }
  destruct (h_tag h =? 16) eqn:T.
  - rewrite (add_value s d h); auto; [discriminate|lia|lia].
  - rewrite (add_value_not_seq s d h); auto; [discriminate|lia|lia].
Qed.
Lemma parse_errors : forall s er p, est_asn1_parse_attributes G bio s = Ok (er, p) -> er <> EST_ERR_AUTH_PENDING.
Proof.
  intros s er p H. unfold est_asn1_parse_attributes in H. destruct (len s <? 4); [inversion H; subst; discriminate|].
  destruct (est_base64_decode _ _ _ _) as [[n d]|]; cbn [bind] in H; [|discriminate].
  destruct (n <=? 0); [inversion H; subst; discriminate|]. unfold est_asn1_sanity_test in H.
  destruct (len d <? 2); [inversion H; subst; discriminate|].
  destruct (sanity_loop _ _ _ _) as [[pop|]|]; cbn [bind] in H; [|inversion H; subst; discriminate|discriminate].
  destruct (_ <? _); inversion H; subst; discriminate.
Qed.
Lemma add_errors : forall s er b, est_add_challengePassword G bio s = Ok (er, b) -> er <> EST_ERR_AUTH_PENDING /\ (er = EST_ERR_NONE -> b <> []).
Proof.
  intros s er b H. destruct (est_base64_decode bio false s (len s * 2)) as [[n d]|] eqn:E.
  2:{ unfold est_add_challengePassword in H. rewrite E in H. discriminate. }
  destruct (decoded _ _ _ E) as (-> & Bd & _). destruct (len d <=? 0) eqn:E0.
  { unfold est_add_challengePassword in H. rewrite E in H. cbn [bind] in H. rewrite E0 in H. inversion H; subst; split; discriminate. }
  destruct (G d) as [h|] eqn:EG.
  - destruct (h_tag h =? 16) eqn:T.
    + rewrite (add_value s d h) in H; auto; [|lia|lia]. inversion H; subst. split; [discriminate|]. intros _ Q.
      match type of Q with b64_encode ?x = [] => pose proof (b64_encode_len x) as L; rewrite Q in L; assert (L0 : 0 < len x) end.
      { rewrite !len_app. change (len hex_chpw) with 11. match goal with |- context [len ?a + (len ?b + 11)] => pose proof (len_nonneg _ a); pose proof (len_nonneg _ b) end. lia. }
      change (len (@nil Z)) with 0 in L. lia.
    + rewrite (add_value_not_seq s d h) in H; auto; [|lia|lia]. inversion H; subst; split; discriminate.
  - unfold est_add_challengePassword in H. rewrite E in H. cbn [bind] in H. rewrite E0, EG in H. inversion H; subst; split; discriminate.
Qed.

(** ** The CSR's OIDs *)
Lemma build_sound : forall body l, est_server_build_csr_oid_list G bio body = Ok (EST_ERR_NONE, l) ->
  exists d, est_base64_decode bio false body (2 * len body) = Ok (len d, d) /\ Forall (contains_oid d) l.
Proof.
  intros body l H. unfold est_server_build_csr_oid_list in H.
  destruct (est_base64_decode bio false body (len body * 2)) as [[n d]|] eqn:E; cbn [bind] in H; [|discriminate].
  destruct (decoded _ _ _ E) as (-> & Bd & _). destruct (len d <=? 0); [discriminate|].
  match type of H with context [csr_asn1_parse G ?m ?a ?x ?y ?z] => destruct (csr_asn1_parse G m a x y z) as [[[r l'] q]|] eqn:EP end; cbn [bind] in H; [|discriminate].
  destruct (r =? 0); [discriminate|]. inversion H; subst.
  destruct (proj1 (parse_facts _) _ _ _ _ _ _ _ Bd EP) as (_ & _ & new & -> & F). exists d. rewrite Z.mul_comm. auto.
Qed.
Lemma build_complete : forall ts body, Forall ordinary ts -> ts <> [] -> len (ders ts) < 2 ^ 31 ->
  body = b64_encode (ders ts) \/ body = b64_wrap (b64_encode (ders ts)) ->
  est_server_build_csr_oid_list G bio body = Ok (EST_ERR_NONE, concat (map oids ts)).
Proof.
  intros ts body P N L Hs.
  assert (L2 : 2 <= len (ders ts)).
  { destruct ts as [|t ts]; [congruence|]. rewrite ders_cons, len_app. pose proof (len_nonneg _ (ders ts)).
    destruct t; cbn [der]; rewrite len_app; match goal with |- context [der_header ?a ?b ?c ?d] => pose proof (der_header_len a b c d) end;
      match goal with |- context [len ?x + len ?y + _] => pose proof (len_nonneg _ y) end; lia. }
  destruct (decode_text body (ders ts)) as [E L4]; auto; [now apply ordinaries_bytes|intro E; rewrite E in L2; cbn in L2; lia|].
  unfold est_server_build_csr_oid_list. rewrite E. cbn [bind]. replace (len (ders ts) <=? 0) with false by lia.
  pose proof (parse_trees (S (length (ders ts))) (2 * length (ders ts) + 2) ts [] [] ltac:(lia) ltac:(lia) P L) as PT.
  rewrite app_nil_r in PT. rewrite PT. reflexivity.
Qed.

Section Check.
Variable oid_text : bytes -> bytes.
Theorem check_sound : forall s body, all_attrs_check G bio oid_text (Some (Some s)) body = Ok EST_ERR_NONE ->
  exists ds db os, est_base64_decode bio false s (2 * len s) = Ok (len ds, ds)
    /\ est_base64_decode bio false body (2 * len body) = Ok (len db, db)
    /\ reads ds os
    /\ forall c, In c os -> c <> challengePassword -> exists c', contains_oid db c' /\ firstn 127 (oid_text c') = firstn 127 (oid_text c).
Proof.
  intros s body H. unfold all_attrs_check in H.
  destruct (est_server_build_csr_oid_list G bio body) as [[e csr]|] eqn:EB; cbn [bind] in H; [|discriminate].
  assert (e = EST_ERR_NONE) as -> by (destruct e; congruence).
  apply build_sound in EB as (db & Eb & F). destruct (len s <? 4); [discriminate|].
  destruct (est_base64_decode bio false s (len s * 2)) as [[n d]|] eqn:E; cbn [bind] in H; [|discriminate].
  destruct (decoded _ _ _ E) as (-> & Bd & _). destruct (len d <=? 0); [discriminate|].
  destruct (1024 <? len d); [discriminate|]. destruct (len d <? 2); [discriminate|].
  apply loop_reads in H as (os & R & N); [|exact Bd|lia]. exists d, db, os. rewrite (Z.mul_comm 2). split; [exact E|].
  split; [exact Eb|]. split; [exact R|]. intros c I Nc. specialize (N _ I). unfold named in N.
  destruct (beq c challengePassword) eqn:Q; [apply beq_eq in Q; congruence|]. cbn [orb] in N.
  apply existsb_exists in N as (o & Io & Q2). exists o. rewrite Forall_forall in F. split; [auto|]. now apply beq_eq in Q2.
Qed.
Theorem check_exact : forall ats cts s body, Forall plain ats -> ats <> [] -> len (ders ats) <= 1024 ->
  Forall ordinary cts -> cts <> [] -> len (ders cts) < 2 ^ 31 ->
  s = b64_encode (ders ats) \/ s = b64_wrap (b64_encode (ders ats)) ->
  body = b64_encode (ders cts) \/ body = b64_wrap (b64_encode (ders cts)) ->
  all_attrs_check G bio oid_text (Some (Some s)) body
  = Ok (if forallb (named oid_text (concat (map oids cts))) (concat (map oids ats)) then EST_ERR_NONE else EST_ERR_CSR_ATTR_MISSING).
Proof.
  intros ats cts s body P N L Pc Nc Lc Hs Hb. unfold all_attrs_check. rewrite (build_complete cts); auto. cbn [bind].
  assert (L2 : 2 <= len (ders ats)).
  { destruct ats as [|t ts]; [congruence|]. rewrite ders_cons, len_app. pose proof (len_nonneg _ (ders ts)).
    destruct t; cbn [der]; rewrite len_app; match goal with |- context [der_header ?a ?b ?c ?d] => pose proof (der_header_len a b c d) end;
      match goal with |- context [len ?x + len ?y + _] => pose proof (len_nonneg _ y) end; lia. }
  destruct (decode_text s (ders ats)) as [E L4]; auto; [now apply plains_bytes|intro E; rewrite E in L2; cbn in L2; lia|].
  replace (len s <? 4) with false by lia. rewrite E. cbn [bind].
  replace (len (ders ats) <=? 0) with false by lia. replace (1024 <? len (ders ats)) with false by lia. replace (len (ders ats) <? 2) with false by lia.
  pose proof (check_trees oid_text ats [] (concat (map oids cts)) P ltac:(lia) ltac:(constructor)) as CT.
  rewrite app_nil_r in CT. unfold check in CT at 1. rewrite CT. destruct (forallb _ _); reflexivity.
Qed.
Lemma named_In : forall csr os, (forall a b, firstn 127 (oid_text a) = firstn 127 (oid_text b) -> a = b) ->
  (forallb (named oid_text csr) os = true <-> forall c, In c os -> c = challengePassword \/ In c csr).
Proof.
  intros csr os Inj. rewrite forallb_forall. split; intros H c I; specialize (H _ I).
  - unfold named in H. apply orb_prop in H as [Q|Q]; [left; now apply beq_eq|right].
    apply existsb_exists in Q as (o & Io & Q). apply beq_eq in Q. apply Inj in Q. now subst.
  - unfold named. destruct H as [->|Q]; [now rewrite (proj2 (beq_eq _ _) eq_refl)|].
    apply orb_true_intro. right. apply existsb_exists. exists c. split; [exact Q|]. now apply beq_eq.
Qed.
End Check.

Lemma parse_pop : forall ts s pop, Forall plain ts -> ts <> [] -> len (ders ts) < 2 ^ 31 ->
  s = b64_encode (ders ts) \/ s = b64_wrap (b64_encode (ders ts)) ->
  est_asn1_parse_attributes G bio s = Ok (EST_ERR_NONE, pop) -> has_pop (concat (map oids ts)) = pop.
Proof.
  intros ts s pop P N L T H. destruct (decode_text s (ders ts)) as [E _]; auto; [now apply plains_bytes|now apply ders_nonempty|].
  unfold est_asn1_parse_attributes in H. destruct (len s <? 4); [discriminate|]. rewrite E in H. cbn [bind] in H.
  destruct (len (ders ts) <=? 0); [discriminate|]. unfold est_asn1_sanity_test in H. destruct (len (ders ts) <? 2); [discriminate|].
  fold (walk (ders ts) false) in H. pose proof (walk_trees ts [] false P L ltac:(constructor)) as W. rewrite app_nil_r in W.
  change (walk [] (false || has_pop (concat (map oids ts)))) with (Ok (Some (has_pop (concat (map oids ts))))) in W.
  rewrite W in H. cbn [bind] in H. destruct (_ <? _); [discriminate|]. now inversion H.
Qed.
Lemma check_too_long : forall oid_text s d body, est_base64_decode bio false s (len s * 2) = Ok (len d, d) -> 1024 < len d ->
  all_attrs_check G bio oid_text (Some (Some s)) body <> Ok EST_ERR_NONE.
Proof.
  intros oid_text s d body E L. unfold all_attrs_check.
  destruct (est_server_build_csr_oid_list G bio body) as [[e l]|]; cbn [bind]; [|discriminate].
  destruct e; try discriminate. destruct (len s <? 4); [discriminate|]. rewrite E. cbn [bind].
  destruct (len d <=? 0); [discriminate|]. replace (1024 <? len d) with true by lia. discriminate.
Qed.
End Bio.
End Attrs.
Lemma has_pop_In : forall os, has_pop os = true <-> In challengePassword os.
Proof.
  intro os. unfold has_pop. rewrite existsb_exists. split.
  - intros (c & I & E). apply beq_eq in E. now subst.
  - intro I. exists challengePassword. split; [exact I|]. now apply beq_eq.
Qed.
