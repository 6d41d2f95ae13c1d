(** DER lemmas and an instance of the header reader's contract. *)
From Coq Require Import String ZArith List Bool Lia ZifyBool ZifyNat.
From Verif Require Import Base Spec.Der Model.CsrAttrs.
Import ListNotations.
Open Scope Z_scope.
Ltac Zify.zify_post_hook ::= Z.to_euclidean_division_equations.

(** ** Lengths *)
Lemma be_app : forall b l d, be b (l ++ [d]) = be b l * b + d.
Proof. intros. unfold be. now rewrite fold_left_app. Qed.
Lemma be_digits_val : forall f n, 0 <= n < 256 ^ Z.of_nat f -> be 256 (be_digits f n) = n.
Proof.
  induction f as [|f IH]; intros n H; [cbn in *; lia|]. cbn [be_digits].
  destruct (n <=? 0) eqn:E; [cbn; lia|]. rewrite be_app, IH; [lia|].
  rewrite Nat2Z.inj_succ, Z.pow_succ_r in H by lia. lia.
Qed.
Lemma be_digits_bytes : forall f n, all_bytes (be_digits f n).
Proof.
  induction f as [|f IH]; intro n; cbn; [constructor|]. destruct (n <=? 0); [constructor|].
  apply Forall_app. split; [apply IH|]. constructor; [unfold is_byte; lia|constructor].
Qed.
Lemma be_digits_len : forall f n, len (be_digits f n) <= Z.of_nat f.
Proof.
  induction f as [|f IH]; intro n; cbn [be_digits]; [cbn; lia|]. destruct (n <=? 0); [cbn; lia|].
  rewrite len_app. specialize (IH (n / 256)). change (len [n mod 256]) with 1. lia.
Qed.
Lemma be_digits_pos : forall f n, 0 < n -> 1 <= len (be_digits (S f) n).
Proof.
  intros f n H. cbn [be_digits]. replace (n <=? 0) with false by lia. rewrite len_app.
  pose proof (len_nonneg _ (be_digits f (n / 256))). change (len [n mod 256]) with 1. lia.
Qed.
Lemma der_length_octets : forall n, 0 <= n < 2 ^ 63 -> length_octets n (der_length n).
Proof.
  intros n H. unfold der_length. destruct (n <? 128) eqn:E; [left; split; [lia|reflexivity]|].
  right. exists (be_digits 8 n). split; [reflexivity|]. split; [|split].
  - pose proof (be_digits_len 8 n). pose proof (be_digits_pos 7 n). lia.
  - apply be_digits_bytes.
  - apply be_digits_val. lia.
Qed.
Lemma der_length_len : forall n, 1 <= len (der_length n) <= 9.
Proof.
  intro n. unfold der_length. destruct (n <? 128); [cbn; lia|]. rewrite len_cons.
  pose proof (be_digits_len 8 n). pose proof (len_nonneg _ (be_digits 8 n)). lia.
Qed.
Lemma der_length_bytes : forall n, 0 <= n -> all_bytes (der_length n).
Proof.
  intros n H. unfold der_length. destruct (n <? 128) eqn:E.
  - constructor; [unfold is_byte; lia|constructor].
  - constructor; [|apply be_digits_bytes]. unfold is_byte.
    pose proof (be_digits_len 8 n). pose proof (len_nonneg _ (be_digits 8 n)). lia.
Qed.
Lemma der_header_len : forall cls cons tag n, 2 <= len (der_header cls cons tag n) <= 10.
Proof. intros. unfold der_header. rewrite len_cons. pose proof (der_length_len n). lia. Qed.
Lemma der_header_bytes : forall cls cons tag n, 0 <= cls < 4 -> 0 <= tag < 31 -> 0 <= n -> all_bytes (der_header cls cons tag n).
Proof.
  intros cls cons tag n ? ? ?. unfold der_header. constructor; [|now apply der_length_bytes].
  unfold is_byte. destruct cons; lia.
Qed.

Lemma starts_bounds : forall b h, starts_with b h ->
  2 <= h_octets h /\ 0 <= h_len h /\ h_octets h + h_len h <= len b.
Proof.
  intros b h (ids & ls & rest & -> & L & I & R & K).
  assert (1 <= len ids).
  { destruct I as [_ [[_ ->]|(hi & lo & -> & _)]]; rewrite len_cons;
      match goal with |- _ <= len ?x + 1 => pose proof (len_nonneg _ x) end; lia. }
  assert (1 <= len ls).
  { destruct (h_indef h); [destruct K as (-> & _); cbn; lia|].
    destruct K as [(_ & ->)|(ds & -> & _)]; rewrite len_cons;
      match goal with |- _ <= len ?x + 1 => pose proof (len_nonneg _ x) end; lia. }
  rewrite len_app in L. rewrite !len_app. lia.
Qed.

(** ** OBJECT IDENTIFIERs *)
Lemma no80_app : forall a b i, no_leading_80 i (a ++ b) =
  no_leading_80 i a && no_leading_80 (match a with [] => i | _ => 128 <=? last a 0 end) b.
Proof.
  induction a as [|x a IH]; intros b i; [reflexivity|]. cbn [app no_leading_80]. rewrite IH, andb_assoc. f_equal.
  destruct a; reflexivity.
Qed.
Lemma sub_ok : forall c, subidentifier c -> no_leading_80 false c = true /\ c <> [] /\ 0 <= last c 0 < 128.
Proof.
  intros c H. destruct H as [hi lo Hh Hl Hd]. split; [|split].
  - rewrite no80_app. destruct hi as [|x hi].
    + cbn. lia.
    + cbn [hd] in Hd. inversion Hh; subst. apply andb_true_iff. split.
      * cbn [no_leading_80]. replace (x =? 128) with false by lia. cbn [andb negb].
        replace (128 <=? x) with true by lia. clear - H2.
        induction hi as [|y hi IH]; [reflexivity|]. inversion H2; subst. cbn [no_leading_80].
        rewrite andb_false_r. cbn [negb andb]. replace (128 <=? y) with true by lia. auto.
      * cbn [no_leading_80]. lia.
  - destruct hi; discriminate.
  - rewrite last_last. lia.
Qed.
Lemma subs_ok : forall subs, Forall subidentifier subs ->
  no_leading_80 false (concat subs) = true /\ (subs <> [] -> concat subs <> [] /\ 0 <= last (concat subs) 0 < 128).
Proof.
  induction subs as [|s subs IH]; intro H; [cbn; split; [reflexivity|congruence]|].
  inversion H; subst. destruct (sub_ok s H2) as (S1 & S2 & S3). destruct (IH H3) as [I1 I2]. cbn [concat]. split.
  - rewrite no80_app, S1. destruct s; [congruence|].
    replace (128 <=? last (z :: s) 0) with false by lia. exact I1.
  - intros _. split; [destruct s; [congruence|discriminate]|].
    destruct subs as [|s2 subs]; [cbn [concat]; now rewrite app_nil_r|].
    destruct I2 as [J1 J2]; [discriminate|].
    assert (E : exists a x, concat (s2 :: subs) = a ++ [x]) by (destruct (exists_last J1) as (a & x & ->); eauto).
    destruct E as (a & x & E). rewrite E in *. rewrite app_assoc, last_last in *. exact J2.
Qed.
Lemma d2i_split : forall c, all_bytes c -> forall hi, Forall (fun d => 128 <= d < 256) hi -> hd 0 hi <> 128 ->
  no_leading_80 (match hi with [] => false | _ => true end) c = true ->
  last (hi ++ c) 0 < 128 -> hi ++ c <> [] ->
  exists subs, subs <> [] /\ Forall subidentifier subs /\ hi ++ c = concat subs.
Proof.
  induction c as [|x c IH]; intros Hb hi Hh Hd N L Ne.
  - exfalso. rewrite app_nil_r in *. destruct (exists_last Ne) as (a & y & ->). rewrite last_last in L.
    apply Forall_app in Hh as [_ Hh]. inversion Hh; subst. lia.
  - inversion Hb; subst. cbn [no_leading_80] in N. apply andb_true_iff in N as [N1 N2].
    assert (Hx : 0 <= x < 256) by assumption.
    destruct (128 <=? x) eqn:Ex.
    + specialize (IH H2 (hi ++ [x])). rewrite <- app_assoc in IH. cbn [app] in IH. apply IH; auto.
      * apply Forall_app. split; [assumption|]. constructor; [lia|constructor].
      * destruct hi; [cbn in *; lia|exact Hd].
      * destruct hi; exact N2.
    + assert (S : subidentifier (hi ++ [x])) by (constructor; auto; lia).
      destruct c as [|y c].
      * exists [hi ++ [x]]. split; [discriminate|]. split; [auto|]. cbn. now rewrite app_nil_r.
      * destruct (IH H2 []) as (subs & S1 & S2 & S3); auto; [discriminate| |discriminate|].
        { cbn [app]. replace (hi ++ x :: y :: c) with ((hi ++ [x]) ++ y :: c) in L by (now rewrite <- app_assoc).
          destruct (@exists_last _ (y :: c)) as (a & z & E); [discriminate|]. rewrite E in *.
          rewrite app_assoc, last_last in L. now rewrite last_last. }
        exists ((hi ++ [x]) :: subs). split; [discriminate|]. split; [auto|]. cbn [concat]. rewrite <- S3.
        now rewrite <- app_assoc.
Qed.
Lemma nth_last : forall (c : bytes), c <> [] -> nth (length c - 1) c 0 = last c 0.
Proof.
  intros c H. destruct (exists_last H) as (a & x & ->). rewrite last_last, app_length. cbn [length].
  rewrite app_nth2 by lia. replace (length a + 1 - 1 - length a)%nat with 0%nat by lia. reflexivity.
Qed.
Lemma d2i_valid : forall c, all_bytes c -> (d2i_oid c = true <-> valid_oid c).
Proof.
  intros c Hb. split.
  - intro H. unfold d2i_oid in H. destruct c as [|x c]; [discriminate|]. apply andb_true_iff in H as [H1 H2].
    rewrite nth_last in H1 by discriminate.
    apply (d2i_split (x :: c) Hb []); auto; try discriminate. cbn [app]. lia.
  - intros (subs & S1 & S2 & ->). destruct (subs_ok _ S2) as [I1 I2]. destruct (I2 S1) as [J1 J2].
    unfold d2i_oid. rewrite nth_last by assumption. destruct (concat subs); [congruence|].
    rewrite I1, andb_true_r. lia.
Qed.
Lemma chpw_valid : valid_oid challengePassword.
Proof. apply d2i_valid; [|reflexivity]. repeat constructor; unfold is_byte; lia. Qed.

(** ** Trees *)
Fixpoint tree_rect' (P : tree -> Prop) (HP : forall cls tag c, P (Prim cls tag c))
  (HN : forall cls tag items, Forall P items -> P (Node cls tag items)) (t : tree) : P t :=
  match t with
  | Prim cls tag c => HP cls tag c
  | Node cls tag items => HN cls tag items
      ((fix go (l : list tree) : Forall P l :=
          match l with [] => Forall_nil _ | x :: r => Forall_cons _ (tree_rect' P HP HN x) (go r) end) items)
  end.
Lemma plain_node : forall cls tag items, plain (Node cls tag items) <-> cls = 0 /\ (tag = 16 \/ tag = 17) /\ Forall plain items.
Proof.
  intros. cbn [plain].
  assert (E : forall l, (fix all (l : list tree) : Prop := match l with [] => True | x :: r => plain x /\ all r end) l <-> Forall plain l).
  { induction l as [|x l IH]; [split; auto|]. rewrite IH. split; [intros [? ?]; auto|]. intro H; inversion H; auto. }
  now rewrite E.
Qed.
Lemma ordinary_node : forall cls tag items, ordinary (Node cls tag items) <-> 0 <= cls < 4 /\ 0 <= tag < 31 /\ Forall ordinary items.
Proof.
  intros. cbn [ordinary].
  assert (E : forall l, (fix all (l : list tree) : Prop := match l with [] => True | x :: r => ordinary x /\ all r end) l <-> Forall ordinary l).
  { induction l as [|x l IH]; [split; auto|]. rewrite IH. split; [intros [? ?]; auto|]. intro H; inversion H; auto. }
  now rewrite E.
Qed.
Lemma ders_cons : forall t l, ders (t :: l) = der t ++ ders l.
Proof. reflexivity. Qed.
Lemma ders_app : forall a b, ders (a ++ b) = ders a ++ ders b.
Proof. intros. unfold ders. now rewrite map_app, concat_app. Qed.
Lemma plain_bytes : forall t, plain t -> all_bytes (der t).
Proof.
  induction t as [cls tag c|cls tag items IH] using tree_rect'; intro H.
  - cbn [plain der] in *. destruct H as (-> & ? & _ & _ & Hc & _). apply Forall_app. split; [|exact Hc].
    apply der_header_bytes; try lia. apply len_nonneg.
  - apply plain_node in H as (-> & Ht & H). cbn [der]. apply Forall_app. split.
    + apply der_header_bytes; try lia. apply len_nonneg.
    + induction items as [|t items IHi]; [constructor|]. inversion H; subst. inversion IH; subst.
      cbn [map concat]. apply Forall_app. split; [exact (H4 H2)|]. exact (IHi H5 H3).
Qed.
Lemma plains_bytes : forall l, Forall plain l -> all_bytes (ders l).
Proof.
  induction l as [|t l IH]; intro H; [constructor|]. inversion H; subst. rewrite ders_cons.
  apply Forall_app. split; [now apply plain_bytes|now apply IH].
Qed.

Lemma ordinary_bytes : forall t, ordinary t -> all_bytes (der t).
Proof.
  induction t as [cls tag c|cls tag items IH] using tree_rect'; intro H.
  - cbn [ordinary der] in *. destruct H as (? & ? & Hc & _ & _). apply Forall_app. split; [|exact Hc].
    apply der_header_bytes; try lia. apply len_nonneg.
  - apply ordinary_node in H as (? & Ht & H). cbn [der]. apply Forall_app. split.
    + apply der_header_bytes; try lia. apply len_nonneg.
    + induction items as [|t items IHi]; [constructor|]. inversion H as [|? ? A1 A2]; subst. inversion IH as [|? ? B1 B2]; subst.
      cbn [map concat]. apply Forall_app. split; [exact (B1 A1)|]. exact (IHi B2 A2).
Qed.
Lemma ordinaries_bytes : forall l, Forall ordinary l -> all_bytes (ders l).
Proof.
  induction l as [|t l IH]; intro H; [constructor|]. inversion H; subst. rewrite ders_cons.
  apply Forall_app. split; [now apply ordinary_bytes|now apply IH].
Qed.

(** ** An instance of the contract, in the manner of OpenSSL *)
Definition simple_reader (b : bytes) : option header :=
  match b with
  | i :: l :: r =>
    if i mod 32 =? 31 then None
    else
      let mk k n inf := Some {| h_octets := k; h_len := n; h_tag := i mod 32; h_class := i / 64;
                                h_cons := negb (i / 32 mod 2 =? 0); h_indef := inf |} in
      if l =? 128 then if i / 32 mod 2 =? 0 then None else mk 2 0 true
      else if l <? 128 then if l <=? len r then mk 2 l false else None
      else
        let k := l - 128 in
        if (8 <? k) || (len r <? k) then None
        else
          let n := be 256 (firstn (Z.to_nat k) r) in
          if n <=? len r - k then mk (2 + k) n false else None
  | _ => None
  end.
Lemma firstn_bytes : forall n l, all_bytes l -> all_bytes (firstn n l).
Proof. intros n l H. rewrite <- (firstn_skipn n l) in H. now apply Forall_app in H. Qed.
Lemma skipn_bytes : forall n l, all_bytes l -> all_bytes (skipn n l).
Proof. intros n l H. rewrite <- (firstn_skipn n l) in H. now apply Forall_app in H. Qed.
Lemma be_nonneg : forall l, all_bytes l -> 0 <= be 256 l.
Proof.
  intros l. induction l as [|x l IH] using rev_ind; intro H; [cbn; lia|].
  apply Forall_app in H as [H1 H2]. rewrite be_app. specialize (IH H1). inversion H2; subst. unfold is_byte in *. lia.
Qed.

Theorem simple_reader_ok : asn1_reader simple_reader.
Proof.
  constructor.
  - intros b h Hb H. unfold simple_reader in H. destruct b as [|i [|l r]]; try discriminate.
    inversion Hb as [|? ? Hi Hb1]; subst. inversion Hb1 as [|? ? Hl Hr]; subst. unfold is_byte in *.
    destruct (i mod 32 =? 31) eqn:E31; [discriminate|].
    assert (ID : identifier_octets (i / 64) (negb (i / 32 mod 2 =? 0)) (i mod 32) [i]).
    { split; [lia|]. left. split; [lia|]. f_equal. destruct (i / 32 mod 2 =? 0) eqn:E; cbn [negb]; lia. }
    destruct (l =? 128) eqn:E128.
    { destruct (i / 32 mod 2 =? 0) eqn:Ec; [discriminate|]. inversion H; subst; clear H.
      exists [i], [l], r. cbn [h_octets h_len h_tag h_class h_cons h_indef]. pose proof (len_nonneg _ r).
      split; [reflexivity|]. split; [reflexivity|]. split; [exact ID|]. split; [lia|].
      split; [f_equal; lia|]. split; reflexivity. }
    destruct (l <? 128) eqn:E127.
    { destruct (l <=? len r) eqn:El; [|discriminate]. inversion H; subst; clear H.
      exists [i], [l], r. cbn [h_octets h_len h_tag h_class h_cons h_indef].
      split; [reflexivity|]. split; [reflexivity|]. split; [exact ID|]. split; [lia|]. left. split; [lia|reflexivity]. }
    destruct ((8 <? l - 128) || (len r <? l - 128)) eqn:Ek; [discriminate|].
    destruct (be 256 (firstn (Z.to_nat (l - 128)) r) <=? len r - (l - 128)) eqn:En; [|discriminate].
    inversion H; subst; clear H. set (k := l - 128) in *.
    assert (Lk : len (firstn (Z.to_nat k) r) = k) by (rewrite len_firstn; lia).
    exists [i], (l :: firstn (Z.to_nat k) r), (skipn (Z.to_nat k) r). cbn [h_octets h_len h_tag h_class h_cons h_indef].
    split; [cbn [app]; now rewrite firstn_skipn|].
    split; [cbn [app]; rewrite !len_cons; change (len (firstn (Z.to_nat k) r) + 1 + 1 = 2 + k); lia|].
    split; [exact ID|].
    split; [split; [apply be_nonneg, firstn_bytes, Hr|rewrite len_skipn; lia]|].
    right. exists (firstn (Z.to_nat k) r). rewrite Lk. split; [f_equal; lia|]. split; [lia|]. split; [apply firstn_bytes, Hr|reflexivity].
  - intros cls cons tag content rest Hc Ht Hl. unfold der_header, der_length.
    pose proof (len_nonneg _ content) as Hn. set (n := len content) in *.
    set (i := 64 * cls + (if cons then 32 else 0) + tag).
    assert (I1 : i mod 32 = tag) by (unfold i; destruct cons; lia).
    assert (I2 : i / 64 = cls) by (unfold i; destruct cons; lia).
    assert (I3 : negb (i / 32 mod 2 =? 0) = cons) by (unfold i; destruct cons; lia).
    destruct (n <? 128) eqn:E.
    + cbn [app simple_reader]. rewrite I1, I2, I3. replace (tag =? 31) with false by lia.
      replace (n =? 128) with false by lia. rewrite E. rewrite len_app. fold n. pose proof (len_nonneg _ rest).
      replace (n <=? n + len rest) with true by lia. reflexivity.
    + cbn [app simple_reader]. rewrite I1, I2, I3. replace (tag =? 31) with false by lia.
      pose proof (be_digits_len 8 n) as L8. pose proof (be_digits_pos 7 n ltac:(lia)) as L1.
      assert (V : be 256 (be_digits 8 n) = n) by (apply be_digits_val; lia).
      set (ds := be_digits 8 n) in *. clearbody ds.
      replace (128 + len ds =? 128) with false by lia. replace (128 + len ds <? 128) with false by lia.
      replace (128 + len ds - 128) with (len ds) by lia. rewrite !len_app. fold n. pose proof (len_nonneg _ rest).
      replace ((8 <? len ds) || (len ds + (n + len rest) <? len ds)) with false by lia.
      replace (Z.to_nat (len ds)) with (length ds) by (unfold len; lia).
      rewrite firstn_app, Nat.sub_diag, firstn_all, firstn_O, app_nil_r.
      rewrite V. replace (n <=? len ds + (n + len rest) - len ds) with true by lia. rewrite !len_cons. 
      f_equal. f_equal. lia.
  - intros b h rest H. unfold simple_reader in *. destruct b as [|i [|l r]]; try discriminate. cbn [app].
    destruct (i mod 32 =? 31); [discriminate|].
    destruct (l =? 128); [destruct (i / 32 mod 2 =? 0); [discriminate|exact H]|].
    pose proof (len_nonneg _ rest). rewrite len_app.
    destruct (l <? 128) eqn:E.
    + destruct (l <=? len r) eqn:El; [|discriminate]. replace (l <=? len r + len rest) with true by lia. exact H.
    + destruct ((8 <? l - 128) || (len r <? l - 128)) eqn:Ek; [discriminate|].
      replace ((8 <? l - 128) || (len r + len rest <? l - 128)) with false by lia.
      rewrite firstn_app. replace (Z.to_nat (l - 128) - length r)%nat with 0%nat by (unfold len in Ek; lia).
      rewrite firstn_O, app_nil_r.
      destruct (be 256 (firstn (Z.to_nat (l - 128)) r) <=? len r - (l - 128)) eqn:En; [|discriminate].
      replace (be 256 (firstn (Z.to_nat (l - 128)) r) <=? len r + len rest - (l - 128)) with true by lia. exact H.
Qed.
