(** Proofs about operation and path-segment selection. *)
From Coq Require Import String ZArith List Bool Lia ZifyBool ZifyNat.
From Verif Require Import Base Model.CLib Model.EstErr Model.Uri Spec.UriPath Proofs.EstErr.
Import ListNotations.
Open Scope Z_scope.

Lemma casecmp_upper_spec : forall a b, casecmp_upper a b = true <-> same_ignoring_case a b.
Proof.
  unfold same_ignoring_case.
  induction a as [|x a IH]; intros [|y b]; cbn [casecmp_upper map]; split; intro H; try discriminate; try reflexivity.
  - apply andb_true_iff in H as [H1 H2]. apply Z.eqb_eq in H1. f_equal; [now apply tolower_toupper_eq|now apply IH].
  - injection H as H1 H2. apply andb_true_iff. split; [apply Z.eqb_eq; now apply tolower_toupper_eq|now apply IH].
Qed.

Lemma op_name_inj : forall o o', same_ignoring_case (op_name o) (op_name o') -> o = o'.
Proof. intros [] []; try reflexivity; intro H; vm_compute in H; discriminate. Qed.
Lemma same_sym : forall a b, same_ignoring_case a b -> same_ignoring_case b a.
Proof. unfold same_ignoring_case. congruence. Qed.
Lemma same_trans : forall a b c, same_ignoring_case a b -> same_ignoring_case b c -> same_ignoring_case a c.
Proof. unfold same_ignoring_case. congruence. Qed.

Lemma parse_operation_spec : forall b s o, s <> [] ->
  (est_parse_operation b s = Some o <-> offered b o /\ same_ignoring_case s (op_name o)).
Proof.
  intros b s o Hne. unfold est_parse_operation.
  assert (E : forall lit, est_strcaseeq_s s lit = casecmp_upper s lit) by (intro; destruct s; [congruence|reflexivity]).
  rewrite !E. clear E.
  assert (F : forall o', casecmp_upper s (op_name o') = true -> (Some o' = Some o <-> same_ignoring_case s (op_name o))).
  { intros o' H. apply casecmp_upper_spec in H. split; [intro G; now inversion G; subst|].
    intro G. f_equal. apply op_name_inj. eapply same_trans; [apply same_sym; exact H|exact G]. }
  assert (N : forall o', casecmp_upper s (op_name o') = false -> same_ignoring_case s (op_name o) -> o <> o').
  { intros o' H G ->. apply casecmp_upper_spec in G. congruence. }
  unfold offered.
  destruct (casecmp_upper s (str "cacerts")) eqn:E1.
  { rewrite (F OP_CACERTS E1). split; [|tauto]. intro G. split; [|exact G].
    apply (F OP_CACERTS E1) in G. inversion G. discriminate. }
  destruct (casecmp_upper s (str "csrattrs")) eqn:E2.
  { rewrite (F OP_CSRATTRS E2). split; [|tauto]. intro G. split; [|exact G].
    apply (F OP_CSRATTRS E2) in G. inversion G. discriminate. }
  destruct (casecmp_upper s (str "simpleenroll")) eqn:E3.
  { rewrite (F OP_SIMPLE_ENROLL E3). split; [|tauto]. intro G. split; [|exact G].
    apply (F OP_SIMPLE_ENROLL E3) in G. inversion G. discriminate. }
  destruct (casecmp_upper s (str "simplereenroll")) eqn:E4.
  { rewrite (F OP_SIMPLE_REENROLL E4). split; [|tauto]. intro G. split; [|exact G].
    apply (F OP_SIMPLE_REENROLL E4) in G. inversion G. discriminate. }
  destruct (casecmp_upper s (str "serverkeygen")) eqn:E5.
  { rewrite (F OP_SERVER_KEYGEN E5). split; [|tauto]. intro G. split; [|exact G].
    apply (F OP_SERVER_KEYGEN E5) in G. inversion G. discriminate. }
  assert (NB : same_ignoring_case s (op_name o) -> is_brski o = true).
  { intro G. destruct o; try reflexivity; exfalso; apply casecmp_upper_spec in G; unfold op_name in G; congruence. }
  destruct b.
  - destruct (casecmp_upper s (str "requestvoucher")) eqn:E6; [rewrite (F OP_BRSKI_REQ_VOUCHER E6); tauto|].
    destruct (casecmp_upper s (str "voucher_status")) eqn:E7; [rewrite (F OP_BRSKI_VOUCHER_STATUS E7); tauto|].
    destruct (casecmp_upper s (str "enrollstatus")) eqn:E8; [rewrite (F OP_BRSKI_ENROLL_STATUS E8); tauto|].
    split; [discriminate|]. intros [_ G]. exfalso. apply casecmp_upper_spec in G.
    destruct o; unfold op_name in G; congruence.
  - split; [discriminate|]. intros [A G]. specialize (A (NB G)). discriminate.
Qed.

Lemma parse_operation_empty : forall b, est_parse_operation b [] = Some OP_CACERTS.
Proof. reflexivity. Qed.

Lemma strncmp_eq_short : forall n a b, (length b < n)%nat -> strncmp_eq n a b = beq a b.
Proof.
  induction n as [|n IH]; intros a b H; [lia|]. destruct a as [|x a], b as [|y b]; try reflexivity.
  cbn [strncmp_eq beq]. cbn [length] in H. rewrite IH by lia. reflexivity.
Qed.

Lemma parse_uri_plain_spec : forall b u o,
  est_parse_uri_plain b u = (EST_ERR_NONE, Some o) <-> offered b o /\ u = est_prefix ++ op_name o.
Proof.
  intros b u o. unfold est_parse_uri_plain.
  repeat match goal with |- context[strncmp_eq 272 u ?l] =>
    rewrite (strncmp_eq_short 272 u l) by (vm_compute; lia) end.
  unfold offered.
  repeat match goal with |- context[if beq u ?l then _ else _] =>
    destruct (beq u l) eqn:? ; [match goal with H : beq u l = true |- _ => apply beq_eq in H; subst u end |
       match goal with H : beq u l = false |- _ => apply beq_neq in H end] end;
  [..|destruct b; cbn [andb]];
  repeat match goal with |- context[if beq u ?l then _ else _] =>
    destruct (beq u l) eqn:? ; [match goal with H : beq u l = true |- _ => apply beq_eq in H; subst u end |
       match goal with H : beq u l = false |- _ => apply beq_neq in H end] end.
  all: split; [intro H; inversion H; subst; (split; [(discriminate || reflexivity)|reflexivity]) | intros [A G]].
  all: try (destruct o; try reflexivity; exfalso; (discriminate G || (unfold op_name in G; vm_compute in G; discriminate G)
       || (specialize (A eq_refl); discriminate A) || (subst u; match goal with H : _ <> _ |- _ => now apply H end) || (now subst u; congruence))).
Qed.

Lemma parse_uri_plain_other : forall b u e o,
  est_parse_uri_plain b u = (e, o) -> (e = EST_ERR_NONE /\ o <> None) \/ (e = EST_ERR_HTTP_INVALID_PATH_SEGMENT /\ o = None).
Proof.
  intros b u e o H. unfold est_parse_uri_plain in H.
  repeat (match type of H with (if ?c then _ else _) = _ => destruct c end;
    [inversion H; subst; left; split; [reflexivity|discriminate]|]).
  inversion H; subst. right. auto.
Qed.

(** ** The build with uriparser *)
Lemma pchar_no_sep : forall s, Forall pchar s -> no_sep s.
Proof.
  intros s H. rewrite Forall_forall in H.
  assert (Q : forall c, c = 47 \/ c = 63 \/ c = 35 -> ~ pchar c).
  { intros c Hc [A|A].
    - unfold isalnum, isalpha, isupper, islower, isdigit in A. lia.
    - vm_compute in A. intuition lia. }
  split; [|split]; intro G; apply H in G; (eapply Q; [|exact G]); auto.
Qed.

(** Every text splits into segments and a query/fragment. *)
Lemma path_split : forall m, exists segs rest, segs <> [] /\ 47 :: m = path_text segs ++ rest
  /\ (forall s, In s segs -> no_sep s) /\ path_end rest.
Proof.
  assert (NS : no_sep []) by (split; [|split]; intros []).
  induction m as [|c m (segs & rest & Hne & E & Hs & Hr)].
  - exists [[]], []. split; [discriminate|]. split; [reflexivity|]. split; [|now left].
    intros s [<-|[]]. exact NS.
  - destruct segs as [|s segs]; [congruence|]. cbn [path_text flat_map] in E.
    change (flat_map (fun s => 47 :: s) segs) with (path_text segs) in E.
    cbn [app] in E. injection E as E.
    destruct (Z.eq_dec c 47) as [->|N1].
    { exists ([] :: s :: segs), rest. split; [discriminate|]. split; [|split; [|exact Hr]].
      - cbn [path_text flat_map app]. rewrite E. reflexivity.
      - intros x [<-|[<-|Hx]]; [exact NS|apply Hs; now left|apply Hs; now right]. }
    destruct (Z.eq_dec c 63) as [->|N2].
    { exists [[]], (63 :: m). split; [discriminate|]. split; [reflexivity|].
      split; [intros x [<-|[]]; exact NS|]. right. exists 63, m. auto. }
    destruct (Z.eq_dec c 35) as [->|N3].
    { exists [[]], (35 :: m). split; [discriminate|]. split; [reflexivity|].
      split; [intros x [<-|[]]; exact NS|]. right. exists 35, m. auto. }
    exists ((c :: s) :: segs), rest. split; [discriminate|]. split; [|split; [|exact Hr]].
    + cbn [path_text flat_map app]. rewrite E. reflexivity.
    + intros x [<-|Hx]; [|apply Hs; now right].
      destruct (Hs s (or_introl eq_refl)) as (A & B & C).
      split; [|split]; intros [G|G]; (congruence || now auto).
Qed.

Definition wk_seg : bytes := str ".well-known".
Definition est_seg : bytes := str "est".

Lemma est_prefix_path : forall t, est_prefix ++ t = path_text [wk_seg; est_seg] ++ 47 :: t.
Proof. reflexivity. Qed.

Lemma skipn_app_exact : forall (a b : bytes) n, Z.of_nat n = len a -> skipn n (a ++ b) = b.
Proof.
  intros a b n H. rewrite skipn_app, skipn_all2 by (unfold len in H; lia).
  replace (n - length a)%nat with O by (unfold len in H; lia). reflexivity.
Qed.

Lemma prefix_skip : forall t n, (n <= 17)%nat -> skipn n (est_prefix ++ t) = skipn n est_prefix ++ t.
Proof.
  intros t n H. rewrite skipn_app. change (length est_prefix) with 17%nat.
  replace (n - 17)%nat with O by lia. reflexivity.
Qed.

Lemma memcmp_prefix : forall a b, memcmp_eq (a ++ b) a (len a) = Ok true.
Proof.
  intros a b. unfold memcmp_eq. rewrite len_app. pose proof (len_nonneg _ b).
  replace ((len a <=? len a + len b) && (len a <=? len a)) with true by lia.
  unfold len. rewrite Nat2Z.id, firstn_app, Nat.sub_diag, firstn_all. cbn [firstn]. rewrite app_nil_r, beq_refl. reflexivity.
Qed.

Section Full.
Variable p : bytes -> option (list (Z * Z)).
Hypothesis Hp : path_parser p.
Variable b : bool.

(** The parser's answer on "/.well-known/est/" followed by a segment. *)
Lemma ranges_of : forall s3 t r, no_sep s3 -> t = [] \/ (exists c more, t = c :: more /\ sep c) ->
  p (est_prefix ++ s3 ++ t) = Some r ->
  exists r3, r = (1, 12) :: (13, 16) :: (17, 17 + len s3) :: r3 /\
    ((exists more, t = 47 :: more) <-> r3 <> []).
Proof.
  intros s3 t r Hs Ht Hr.
  assert (NW : forall s, In s [wk_seg; est_seg] -> no_sep s).
  { intros s [<-|[<-|[]]]; apply pchar_no_sep; repeat (constructor; [vm_compute; intuition congruence|]); constructor. }
  assert (C : exists segs rest, 47 :: s3 ++ t = path_text (s3 :: segs) ++ rest
     /\ (forall s, In s (s3 :: segs) -> no_sep s) /\ path_end rest /\ ((exists more, t = 47 :: more) <-> segs <> [])).
  { destruct Ht as [->|(c & more & -> & Hc)].
    - exists [], []. cbn [path_text flat_map app]. rewrite !app_nil_r. split; [reflexivity|].
      split; [intros s [<-|[]]; exact Hs|]. split; [now left|]. split; [intros (m & Hm); discriminate|congruence].
    - destruct Hc as [->|Hc].
      + destruct (path_split more) as (segs & rest & H1 & H2 & H3 & H4). exists segs, rest.
        split; [cbn [path_text flat_map app]; rewrite H2; rewrite <- !app_assoc; reflexivity|].
        split; [intros s [<-|Hx]; [exact Hs|now apply H3]|]. split; [exact H4|]. split; [auto|eauto].
      + exists [], (c :: more). split; [cbn [path_text flat_map app]; rewrite app_nil_r; reflexivity|].
        split; [intros s [<-|[]]; exact Hs|]. split; [right; eauto|].
        split; [intros (m & Hm); inversion Hm; subst; lia|congruence]. }
  destruct C as (segs & rest & E & Hn & Hre & Hiff).
  assert (U : est_prefix ++ s3 ++ t = path_text (wk_seg :: est_seg :: s3 :: segs) ++ rest).
  { rewrite est_prefix_path, E. cbn [path_text flat_map app]. reflexivity. }
  rewrite U in Hr.
  apply (pp_exact p Hp) in Hr; [|discriminate|discriminate| |exact Hre].
  - rewrite Hr. exists (seg_ranges (17 + len s3 + 1) segs). split; [reflexivity|].
    rewrite Hiff. destruct segs; cbn; split; congruence.
  - intros s [<-|[<-|Hx]]; [apply NW; now left|apply NW; right; now left|now apply Hn].
Qed.

Lemma cstr_skip_prefix : forall s after, no_nul s -> s <> [] ->
  seg_mem ((est_prefix ++ s) ++ 0 :: after) (17, 17 + len s) = s ++ 0 :: after.
Proof.
  intros s after Hn Hne. unfold seg_mem.
  replace (17 =? 17 + len s) with false by (destruct s; [congruence|rewrite len_cons; pose proof (len_nonneg _ s); lia]).
  rewrite <- app_assoc. change (Z.to_nat 17) with 17%nat. rewrite prefix_skip by lia. reflexivity.
Qed.

Definition after_op (x : bytes) (s3 : bytes) : est_error * op_out * option bytes :=
  match est_parse_operation b x with
  | None => (EST_ERR_HTTP_BAD_REQ, OpSet None, None)
  | Some o => (EST_ERR_NONE, OpSet (Some o), Some s3)
  end.

Lemma full_spec : forall s3 t r after, no_sep s3 -> t = [] \/ (exists c more, t = c :: more /\ sep c) ->
  no_nul (s3 ++ t) -> p (est_prefix ++ s3 ++ t) = Some r ->
  est_parse_uri_full p b ((est_prefix ++ s3 ++ t) ++ 0 :: after) =
  match s3 with
  | [] => Ok (EST_ERR_HTTP_INVALID_PATH_SEGMENT, OpSet None, None)
  | _ => if 128 <? len s3 then Ok (EST_ERR_HTTP_INVALID_PATH_SEGMENT, OpUnset, None)
         else match est_parse_operation b s3, t with
              | Some o, [] => Ok (EST_ERR_NONE, OpSet (Some o), None)
              | Some o, _ :: _ => Ok (EST_ERR_HTTP_INVALID_PATH_SEGMENT, OpSet None, None)
              | None, _ :: more => Ok (after_op more s3)
              | None, [] => x <- cstr after ;; Ok (after_op x s3)
              end
  end.
Proof.
  intros s3 t r after Hs Ht Hn Hr. unfold est_parse_uri_full.
  assert (NP : no_nul (est_prefix ++ s3 ++ t)).
  { apply no_nul_app. split; [vm_compute; intuition discriminate|exact Hn]. }
  rewrite cstr_app_nul by exact NP. cbn [bind]. rewrite Hr.
  destruct (ranges_of s3 t r Hs Ht Hr) as (r3 & -> & Hiff).
  set (blk := (est_prefix ++ s3 ++ t) ++ 0 :: after).
  assert (B1 : seg_mem blk (1, 12) = wk_seg ++ skipn 12 est_prefix ++ (s3 ++ t) ++ 0 :: after).
  { unfold blk, seg_mem. change (1 =? 12) with false. change (Z.to_nat 1) with 1%nat. rewrite <- app_assoc.
    rewrite prefix_skip by lia. reflexivity. }
  assert (B2 : seg_mem blk (13, 16) = est_seg ++ skipn 16 est_prefix ++ (s3 ++ t) ++ 0 :: after).
  { unfold blk, seg_mem. change (13 =? 16) with false. change (Z.to_nat 13) with 13%nat. rewrite <- app_assoc.
    rewrite prefix_skip by lia. reflexivity. }
  rewrite B1, B2. change 11 with (len wk_seg). change 3 with (len est_seg).
  change (str ".well-known") with wk_seg. change (str "est") with est_seg.
  rw_bind (memcmp_prefix wk_seg (skipn 12 est_prefix ++ (s3 ++ t) ++ 0 :: after)). cbn [negb].
  rw_bind (memcmp_prefix est_seg (skipn 16 est_prefix ++ (s3 ++ t) ++ 0 :: after)). cbn [negb].
  cbn [fst snd]. replace (17 + len s3 - 17) with (len s3) by lia.
  destruct s3 as [|c0 s0].
  { change (len []) with 0. cbn [seg_mem seg_after Z.add Z.eqb Pos.eqb bind].
    change (128 <? 0) with false. cbn. reflexivity. }
  set (s3 := c0 :: s0) in *. assert (Hne : s3 <> []) by discriminate. clearbody s3.
  destruct (128 <? len s3) eqn:E128; [destruct s3; [congruence|reflexivity]|].
  assert (L3 : 0 < len s3) by (destruct s3; [congruence|rewrite len_cons; pose proof (len_nonneg _ s3); lia]).
  assert (B3 : seg_mem blk (17, 17 + len s3) = (s3 ++ t) ++ 0 :: after).
  { unfold blk, seg_mem. replace (17 =? 17 + len s3) with false by lia. rewrite <- app_assoc.
    change (Z.to_nat 17) with 17%nat. rewrite prefix_skip by lia. reflexivity. }
  rewrite B3.
  assert (A : seg_after blk (17, 17 + len s3) = Ok (hd 0 (t ++ 0 :: after))).
  { unfold seg_after. replace (17 =? 17 + len s3) with false by lia. unfold blk.
    rewrite rd_ok.
    - f_equal. rewrite <- !app_assoc. replace (Z.to_nat (17 + len s3)) with (length (est_prefix ++ s3))
        by (rewrite app_length; change (length est_prefix) with 17%nat; unfold len; lia).
      rewrite (app_assoc est_prefix), app_nth2 by lia. rewrite Nat.sub_diag.
      destruct (t ++ 0 :: after); reflexivity.
    - rewrite !len_app, len_cons. change (len est_prefix) with 17. pose proof (len_nonneg _ t).
      pose proof (len_nonneg _ after). lia. }
  rewrite A. cbn [bind].
  rw_bind (cstr_app_nul (s3 ++ t) after Hn).
  assert (F : firstn (Z.to_nat (len s3)) (s3 ++ t) = s3).
  { unfold len. rewrite Nat2Z.id, firstn_app, Nat.sub_diag, firstn_all. cbn [firstn]. apply app_nil_r. }
  assert (SEG : (if negb (hd 0 (t ++ 0 :: after) =? 0) then strndup (s3 ++ t) (len s3) else strndup (s3 ++ t) 128) = s3).
  { destruct Ht as [->|(c & more & -> & Hc)].
    - cbn [app hd]. change (negb (0 =? 0)) with false. cbn [negb]. rewrite app_nil_r. unfold strndup. apply firstn_all2.
      unfold len in E128. lia.
    - cbn [app hd]. replace (c =? 0) with false by (unfold sep in Hc; lia). exact F. }
  cbv zeta. rewrite SEG.
  assert (FS : firstn (Z.to_nat (len s3)) s3 = s3) by (apply firstn_all2; unfold len; lia).
  destruct s3 as [|c1 s1]; [congruence|]. set (s3 := c1 :: s1) in *. clearbody s3.
  destruct (est_parse_operation b s3) as [o|] eqn:EO.
  - destruct Ht as [->|(c & more & -> & Hc)]; cbn [app hd].
    + reflexivity.
    + replace (c =? 0) with false by (unfold sep in Hc; lia). reflexivity.
  - replace (len s3 + 1 <? len s3) with false by lia. rewrite FS.
    assert (CA : cstr_at ((s3 ++ t) ++ 0 :: after) (len s3 + 1) =
                 match t with [] => cstr after | _ :: more => cstr (more ++ 0 :: after) end).
    { rewrite cstr_at_len. rewrite !len_app, len_cons. pose proof (len_nonneg _ t). pose proof (len_nonneg _ after).
      replace ((0 <=? len s3 + 1) && (len s3 + 1 <=? len s3 + len t + (len after + 1))) with true by lia.
      rewrite <- app_assoc. destruct t as [|c more].
      - cbn [app]. change (s3 ++ 0 :: after) with (s3 ++ [0] ++ after). rewrite app_assoc.
        rewrite skipn_app_exact; [reflexivity|]. rewrite len_app. change (len (A:=Z) [0]) with 1. lia.
      - cbn [app]. change (s3 ++ c :: more ++ 0 :: after) with (s3 ++ [c] ++ more ++ 0 :: after). rewrite app_assoc.
        rewrite skipn_app_exact; [reflexivity|]. rewrite len_app. change (len (A:=Z) [c]) with 1. lia. }
    rewrite CA. destruct t as [|c more].
    + destruct (cstr after) as [x|]; [|reflexivity]. cbn [bind]. unfold after_op.
      destruct (est_parse_operation b x); reflexivity.
    + apply no_nul_app in Hn as [_ Hn]. apply no_nul_cons in Hn as [_ Hn].
      rw_bind (cstr_app_nul more after Hn). unfold after_op. destruct (est_parse_operation b more); reflexivity.
Qed.

Lemma split_seg : forall ps, exists s3 t, ps = s3 ++ t /\ no_sep s3 /\ (t = [] \/ (exists c more, t = c :: more /\ sep c)).
Proof.
  intro ps. destruct (path_split ps) as (segs & rest & Hne & E & Hs & Hr).
  destruct segs as [|s segs]; [congruence|]. cbn [path_text flat_map app] in E. injection E as E.
  exists s, (path_text segs ++ rest). rewrite E, <- app_assoc. split; [reflexivity|].
  split; [apply Hs; now left|]. destruct segs as [|s' segs].
  - cbn [path_text flat_map app]. destruct Hr as [->|(c & t & -> & Hc)]; [now left|right]. exists c, t.
    split; [reflexivity|]. unfold sep. tauto.
  - right. cbn [path_text flat_map app]. do 2 eexists. split; [reflexivity|]. now left.
Qed.

(** Accepting a path segment. *)
Definition good_segment (ps : bytes) : Prop :=
  1 <= len ps <= 128 /\ no_sep ps /\ (forall o, offered b o -> ~ same_ignoring_case ps (op_name o))
  /\ p (est_prefix ++ ps) <> None.

Lemma parse_path_seg_spec : forall ps, no_nul ps -> 1 <= len ps <= 128 ->
  est_parse_path_seg p b ps = Ok EST_ERR_NONE /\ good_segment ps
  \/ est_parse_path_seg p b ps = Ok EST_ERR_HTTP_INVALID_PATH_SEGMENT /\ ~ good_segment ps.
Proof.
  intros ps Hn Hl. unfold est_parse_path_seg.
  assert (E1 : strndup ps 272 = ps) by (unfold strndup; apply firstn_all2; unfold len in Hl; lia).
  rewrite E1. change (str "/.well-known/est/") with est_prefix.
  rewrite len_app. change (len est_prefix) with 17.
  replace (272 <? 17 + len ps + 1) with false by lia. cbv zeta.
  destruct (p (est_prefix ++ ps)) as [r|] eqn:Er.
  2:{ right. split; [reflexivity|]. intros (_ & _ & _ & G). congruence. }
  destruct (split_seg ps) as (s3 & t & Eps & Hs & Ht).
  assert (Er' := Er). rewrite Eps in Er'. destruct (ranges_of s3 t r Hs Ht Er') as (r3 & -> & Hiff).
  set (blk := (est_prefix ++ ps) ++ repeat 0 (Z.to_nat (272 - (17 + len ps)))).
  assert (ER : exists after, blk = (est_prefix ++ ps) ++ 0 :: after).
  { unfold blk. replace (Z.to_nat (272 - (17 + len ps))) with (S (Z.to_nat (271 - (17 + len ps)))) by lia. cbn [repeat]. eauto. }
  destruct ER as (after & ER). rewrite ER. clear blk ER.
  assert (NS : t <> [] -> ~ good_segment ps).
  { intros Ht' (_ & (N1 & N2 & N3) & _). destruct Ht as [->|(c & more & -> & Hc)]; [congruence|].
    assert (In c ps) by (rewrite Eps; apply in_app_iff; right; now left).
    destruct Hc as [->|[->| ->]]; auto. }
  assert (CUR : exists x, cstr (seg_mem ((est_prefix ++ ps) ++ 0 :: after) (17, 17 + len s3)) = Ok x
                /\ (t = [] -> x = ps)).
  { destruct s3 as [|c0 s0] eqn:E3.
    - exists [88]. split; [reflexivity|]. intros ->. rewrite Eps in Hl. change (len ([] ++ [])) with 0 in Hl. lia.
    - rewrite <- E3 in *. exists ps. split; [|auto].
      unfold seg_mem. replace (17 =? 17 + len s3) with false by (rewrite E3, len_cons; pose proof (len_nonneg _ s0); lia).
      rewrite <- app_assoc. change (Z.to_nat 17) with 17%nat. rewrite prefix_skip by lia.
      exact (cstr_app_nul ps after Hn). }
  destruct CUR as (x & Ex & Ext). rewrite Ex. cbn [bind].
  destruct Ht as [Et|(c & more & Et & Hc)].
  - specialize (Ext Et). subst x. rewrite Et, app_nil_r in Eps. subst s3.
    assert (Hr3 : r3 = []).
    { destruct r3; [reflexivity|]. destruct Hiff as [_ H2]. destruct H2 as (m & Hm); [discriminate|]. congruence. }
    subst r3. assert (Hne : ps <> []) by (intros ->; change (len []) with 0 in Hl; lia).
    destruct (est_parse_operation b ps) as [o|] eqn:EO.
    + right. split; [reflexivity|]. apply parse_operation_spec in EO as [O1 O2]; [|exact Hne].
      intros (_ & _ & G & _). exact (G o O1 O2).
    + left. unfold seg_after. replace (17 =? 17 + len ps) with false by lia.
      rewrite rd_ok by (rewrite !len_app, len_cons; change (len est_prefix) with 17; pose proof (len_nonneg _ after); lia).
      cbn [bind]. replace (Z.to_nat (17 + len ps)) with (length (est_prefix ++ ps))
        by (rewrite app_length; change (length est_prefix) with 17%nat; unfold len; lia).
      rewrite app_nth2 by lia. rewrite Nat.sub_diag. cbn [nth]. change (0 =? 0) with true. cbn [negb].
      split; [reflexivity|]. split; [exact Hl|]. split; [exact Hs|]. split; [|congruence].
      intros o Ho Hsame. assert (est_parse_operation b ps = Some o) by (apply parse_operation_spec; auto). congruence.
  - right. split; [|apply NS; rewrite Et; discriminate].
    destruct (est_parse_operation b x) as [o|]; [reflexivity|].
    destruct r3 as [|q r3]; [|reflexivity].
    assert (Hc2 : c = 63 \/ c = 35).
    { destruct Hc as [->|Hc]; [|exact Hc]. exfalso. destruct Hiff as [H1 _]. apply H1; [eauto|reflexivity]. }
    assert (AF : seg_after ((est_prefix ++ ps) ++ 0 :: after) (17, 17 + len s3) = Ok (if 17 =? 17 + len s3 then 88 else c)).
    { unfold seg_after. destruct (17 =? 17 + len s3) eqn:E17; [reflexivity|].
      rewrite rd_ok.
      - f_equal. rewrite Eps, Et. rewrite <- !app_assoc. rewrite (app_assoc est_prefix).
        replace (Z.to_nat (17 + len s3)) with (length (est_prefix ++ s3))
          by (rewrite app_length; change (length est_prefix) with 17%nat; unfold len; lia).
        rewrite app_nth2 by lia. rewrite Nat.sub_diag. reflexivity.
      - rewrite !len_app, len_cons, Eps, len_app. change (len est_prefix) with 17. pose proof (len_nonneg _ s3).
        pose proof (len_nonneg _ t). pose proof (len_nonneg _ after). lia. }
    rewrite AF. cbn [bind]. destruct (17 =? 17 + len s3).
    + reflexivity.
    + replace (c =? 0) with false by lia. reflexivity.
Qed.

Lemma store_spec : forall ps, est_store_path_segment ps (len ps) = Ok (EST_ERR_NONE, ps ++ [0]).
Proof.
  intros ps. unfold est_store_path_segment. pose proof (len_nonneg _ ps).
  replace (Z.min (len ps) (len ps) + 1 <? len ps + 1) with false by lia.
  assert (E : strncpy_img ps (len ps + 1) = ps ++ [0]).
  { unfold strncpy_img. replace (Z.to_nat (len ps + 1)) with (length ps + 1)%nat by (unfold len; lia).
    rewrite firstn_app, firstn_all2 by lia. replace (length ps + 1 - length ps)%nat with 1%nat by lia.
    replace (length ps + 1)%nat with (S (length ps)) by lia. reflexivity. }
  rewrite E. rewrite wr_ok by (rewrite len_app; change (len (A:=Z) [0]) with 1; lia). cbn [bind]. do 2 f_equal.
  unfold len. rewrite Nat2Z.id, set_nth_split by (rewrite app_length; cbn; lia).
  rewrite firstn_app, Nat.sub_diag, firstn_all. cbn [firstn]. rewrite app_nil_r. f_equal. f_equal.
  apply skipn_all2. rewrite app_length. cbn. lia.
Qed.
Lemma store_safe : forall ps n, 0 <= n -> (is_ok (est_store_path_segment ps n) <-> n <= len ps).
Proof.
  intros ps n Hn. unfold est_store_path_segment. pose proof (len_nonneg _ ps).
  destruct (Z_le_gt_dec n (len ps)).
  - replace (Z.min (len ps) n + 1 <? n + 1) with false by lia. split; [auto|]. intros _.
    rewrite wr_ok; [eexists; reflexivity|]. unfold strncpy_img. rewrite len_firstn, len_app, len_repeat. lia.
  - replace (Z.min (len ps) n + 1 <? n + 1) with true by lia. split; [intros [? H0]; discriminate|lia].
Qed.

Lemma set_path_segment_spec : forall old ps, no_nul ps ->
  set_path_segment p b old (Some ps) = Ok (EST_ERR_NONE, Some (ps ++ [0])) /\ good_segment ps
  \/ set_path_segment p b old (Some ps) = Ok (EST_ERR_HTTP_INVALID_PATH_SEGMENT, old) /\ ~ good_segment ps.
Proof.
  intros old ps Hn. unfold set_path_segment. destruct ps as [|c s] eqn:E.
  { right. split; [reflexivity|]. intros (G & _). change (len []) with 0 in G. lia. }
  rewrite <- E in *. assert (L : 0 < len ps) by (rewrite E, len_cons; pose proof (len_nonneg _ s); lia).
  clear E. destruct (128 <? Z.min (len ps) 129) eqn:E128.
  { right. split; [reflexivity|]. intros (G & _). lia. }
  assert (L2 : 1 <= len ps <= 128) by lia. replace (Z.min (len ps) 129) with (len ps) by lia.
  destruct (parse_path_seg_spec ps Hn L2) as [[E1 G]|[E1 G]]; rewrite E1; cbn [bind is_none negb].
  - left. split; [|exact G]. rw_bind (store_spec ps). reflexivity.
  - right. auto.
Qed.

End Full.

(** ** Behaviour on concrete URIs, for every conforming parser *)
Lemma p_eval : forall p, path_parser p -> forall segs, segs <> [] -> hd [] segs <> [] ->
  (forall s, In s segs -> Forall pchar s) -> p (path_text segs) = Some (seg_ranges 1 segs).
Proof.
  intros p Hp segs H1 H2 H3. destruct (pp_accepts p Hp segs H1 H2 H3) as [r Hr]. rewrite Hr. f_equal.
  rewrite <- (app_nil_r (path_text segs)) in Hr. apply (pp_exact p Hp segs [] r) in Hr; auto.
  - intros s Hs. apply pchar_no_sep; auto. - now left.
Qed.

Ltac pchars := repeat (constructor; [vm_compute; intuition congruence|]); constructor.

Lemma full_null_deref : forall p b after, path_parser p ->
  est_parse_uri_full p b (str "/.well-known/est" ++ 0 :: after) = UB.
Proof.
  intros p b after Hp. unfold est_parse_uri_full.
  rw_bind (cstr_app_nul (str "/.well-known/est") after ltac:(vm_compute; intuition discriminate)).
  change (str "/.well-known/est") with (path_text [wk_seg; est_seg]) at 1.
  rewrite p_eval; [|exact Hp|discriminate|discriminate|intros s [<-|[<-|[]]]; pchars].
  change (seg_ranges 1 [wk_seg; est_seg]) with [(1, 12); (13, 16)]. cbv iota beta.
  change (seg_mem (str "/.well-known/est" ++ 0 :: after) (1, 12)) with (wk_seg ++ str "/est" ++ 0 :: after).
  rewrite (memcmp_prefix wk_seg (str "/est" ++ 0 :: after) : memcmp_eq _ (str ".well-known") 11 = Ok true). cbn [bind].
  change (seg_mem (str "/.well-known/est" ++ 0 :: after) (13, 16)) with (est_seg ++ 0 :: after).
  rewrite (memcmp_prefix est_seg (0 :: after) : memcmp_eq _ (str "est") 3 = Ok true). cbn [bind]. reflexivity.
Qed.
Lemma full_prefix_only : forall p b after, path_parser p ->
  est_parse_uri_full p b (str "/.well-knownX/establish/cacerts" ++ 0 :: after)
  = Ok (EST_ERR_NONE, OpSet (Some OP_CACERTS), None).
Proof.
  intros p b after Hp. unfold est_parse_uri_full.
  rw_bind (cstr_app_nul (str "/.well-knownX/establish/cacerts") after ltac:(vm_compute; intuition discriminate)).
  change (str "/.well-knownX/establish/cacerts") with (path_text [str ".well-knownX"; str "establish"; str "cacerts"]) at 1.
  rewrite p_eval; [|exact Hp|discriminate|discriminate|intros s [<-|[<-|[<-|[]]]]; pchars].
  change (seg_ranges 1 _) with [(1, 13); (14, 23); (24, 31)]. cbv iota beta.
  change (seg_mem (str "/.well-knownX/establish/cacerts" ++ 0 :: after) (1, 13))
    with (wk_seg ++ str "X/establish/cacerts" ++ 0 :: after).
  rewrite (memcmp_prefix wk_seg (str "X/establish/cacerts" ++ 0 :: after) : memcmp_eq _ (str ".well-known") 11 = Ok true). cbn [bind]. cbn [negb].
  change (seg_mem (str "/.well-knownX/establish/cacerts" ++ 0 :: after) (14, 23))
    with (est_seg ++ str "ablish/cacerts" ++ 0 :: after).
  rewrite (memcmp_prefix est_seg (str "ablish/cacerts" ++ 0 :: after) : memcmp_eq _ (str "est") 3 = Ok true). cbn [bind]. cbn [negb fst snd].
  change (128 <? 31 - 24) with false. cbv iota.
  cbn [seg_after]. change (24 =? 31) with false. cbv iota.
  rewrite rd_ok by (rewrite len_app, len_cons; change (len (str "/.well-knownX/establish/cacerts")) with 31;
     pose proof (len_nonneg _ after); lia).
  change (nth (Z.to_nat 31) (str "/.well-knownX/establish/cacerts" ++ 0 :: after) 0) with 0. cbn [bind].
  reflexivity.
Qed.
Lemma full_root : forall p b after, path_parser p ->
  est_parse_uri_full p b (str "/" ++ 0 :: after) = Ok (EST_ERR_NONE, OpUnset, None).
Proof.
  intros p b after Hp. unfold est_parse_uri_full.
  rw_bind (cstr_app_nul (str "/") after ltac:(vm_compute; intuition discriminate)).
  change (str "/") with [47]. rewrite (pp_root p Hp). reflexivity.
Qed.

(** ** A parser that meets the contract *)
Fixpoint split47 (s : bytes) : list bytes :=
  match s with
  | [] => [[]]
  | c :: t => if c =? 47 then [] :: split47 t
              else match split47 t with h :: r => (c :: h) :: r | [] => [[c]] end
  end.
Definition rfc_path_parser (u : bytes) : option (list (Z * Z)) :=
  match u with
  | c :: m => if c =? 47 then
      match take_while (fun x => negb ((x =? 63) || (x =? 35))) m with
      | [] => Some []
      | path => Some (seg_ranges 1 (split47 path))
      end
    else None
  | [] => None
  end.

Lemma split47_seg : forall s t, ~ In 47 s -> split47 (s ++ 47 :: t) = s :: split47 t.
Proof.
  induction s as [|c s IH]; intros t H; cbn [app split47]; [reflexivity|].
  replace (c =? 47) with false by (cbn in H; lia). rewrite IH; [reflexivity|]. intro G; apply H; now right.
Qed.
Lemma split47_last : forall s, ~ In 47 s -> split47 s = [s].
Proof.
  induction s as [|c s IH]; intro H; [reflexivity|]. cbn [split47].
  replace (c =? 47) with false by (cbn in H; lia). rewrite IH; [reflexivity|]. intro G; apply H; now right.
Qed.
Lemma split47_path : forall segs s, (forall x, In x (s :: segs) -> no_sep x) -> split47 (s ++ path_text segs) = s :: segs.
Proof.
  induction segs as [|s' segs IH]; intros s H.
  - cbn [path_text flat_map]. rewrite app_nil_r. apply split47_last. apply (H s); now left.
  - cbn [path_text flat_map app]. rewrite split47_seg by (apply (H s); now left). f_equal. apply IH.
    intros x Hx. apply H. now right.
Qed.
Lemma rfc_path_parser_eq : forall segs rest, segs <> [] -> hd [] segs <> [] ->
  (forall s, In s segs -> no_sep s) -> path_end rest ->
  rfc_path_parser (path_text segs ++ rest) = Some (seg_ranges 1 segs).
Proof.
  intros segs rest Hne Hhd Hs Hr. destruct segs as [|s segs]; [congruence|]. cbn [path_text flat_map app rfc_path_parser hd] in *.
  change (47 =? 47) with true. cbv iota. change (flat_map (fun s => 47 :: s) segs) with (path_text segs).
  assert (T : take_while (fun x => negb ((x =? 63) || (x =? 35))) ((s ++ path_text segs) ++ rest) = s ++ path_text segs).
  { rewrite take_while_app_all.
    - assert (take_while (fun x => negb ((x =? 63) || (x =? 35))) rest = []) as ->; [|apply app_nil_r].
      destruct Hr as [->|(c & t & -> & Hc)]; [reflexivity|]. cbn [take_while].
      replace (negb ((c =? 63) || (c =? 35))) with false by lia. reflexivity.
    - apply Forall_app. split.
      + apply Forall_forall. intros x Hx. destruct (Hs s (or_introl eq_refl)) as (A & B & C).
        assert (x <> 63) by congruence. assert (x <> 35) by congruence. lia.
      + assert (Hs' : forall x, In x segs -> no_sep x) by (intros x Hx; apply Hs; now right). clear - Hs'.
        induction segs as [|a segs IH]; [constructor|]. cbn [path_text flat_map app]. constructor; [reflexivity|].
        apply Forall_app. split; [|apply IH; intros x Hx; apply Hs'; now right].
        apply Forall_forall. intros x Hx. destruct (Hs' a (or_introl eq_refl)) as (A & B & C).
        assert (x <> 63) by congruence. assert (x <> 35) by congruence. lia. }
  rewrite T. destruct (s ++ path_text segs) eqn:E.
  { destruct s; [congruence|discriminate]. }
  rewrite <- E, split47_path by exact Hs. reflexivity.
Qed.
Lemma rfc_path_parser_ok : path_parser rfc_path_parser.
Proof.
  constructor.
  - intros segs rest r H1 H2 H3 H4 H. rewrite rfc_path_parser_eq in H by assumption. now inversion H.
  - intros segs H1 H2 H3. rewrite <- (app_nil_r (path_text segs)). eexists. apply rfc_path_parser_eq; auto.
    + intros s Hs. apply pchar_no_sep; auto. + now left.
  - reflexivity.
Qed.

(** ** Statements used in Properties/Uri.v *)
Lemma uri_op : forall p brski name o r after, path_parser p ->
  no_nul name -> no_sep name -> name <> [] -> len name <= 128 ->
  p (str "/.well-known/est/" ++ name) = Some r ->
  offered brski o -> same_ignoring_case name (op_name o) ->
  est_parse_uri_full p brski ((str "/.well-known/est/" ++ name) ++ 0 :: after)
  = Ok (EST_ERR_NONE, OpSet (Some o), None).
Proof.
  intros p brski name o r after Hp Hn Hs Hne Hl Hr Ho Hsame.
  change (str "/.well-known/est/") with est_prefix in *. rewrite <- (app_nil_r name) at 1.
  rewrite (full_spec p Hp brski name [] r after Hs); [|now left|now rewrite app_nil_r|now rewrite app_nil_r].
  assert (E : est_parse_operation brski name = Some o) by (apply parse_operation_spec; auto).
  rewrite E. destruct name; [congruence|]. replace (128 <? len (z :: name)) with false by lia. reflexivity.
Qed.
Lemma uri_label : forall p brski label c more r after, path_parser p ->
  no_nul (label ++ c :: more) -> no_sep label -> label <> [] -> len label <= 128 -> sep c ->
  p (str "/.well-known/est/" ++ label ++ c :: more) = Some r ->
  est_parse_uri_full p brski ((str "/.well-known/est/" ++ label ++ c :: more) ++ 0 :: after) =
  match est_parse_operation brski label, est_parse_operation brski more with
  | Some _, _ => Ok (EST_ERR_HTTP_INVALID_PATH_SEGMENT, OpSet None, None)
  | None, Some o => Ok (EST_ERR_NONE, OpSet (Some o), Some label)
  | None, None => Ok (EST_ERR_HTTP_BAD_REQ, OpSet None, None)
  end.
Proof.
  intros p brski label c more r after Hp Hn Hs Hne Hl Hc Hr.
  change (str "/.well-known/est/") with est_prefix in *.
  rewrite (full_spec p Hp brski label (c :: more) r after Hs); [|eauto|exact Hn|exact Hr].
  destruct label as [|x l]; [congruence|]. replace (128 <? len (x :: l)) with false by lia.
  unfold after_op. destruct (est_parse_operation brski (x :: l)), (est_parse_operation brski more); reflexivity.
Qed.
Lemma uri_bad_label : forall p brski label t r after, path_parser p ->
  no_nul (label ++ t) -> no_sep label -> t = [] \/ (exists c more, t = c :: more /\ sep c) ->
  label = [] \/ 128 < len label ->
  p (str "/.well-known/est/" ++ label ++ t) = Some r ->
  exists o, est_parse_uri_full p brski ((str "/.well-known/est/" ++ label ++ t) ++ 0 :: after)
  = Ok (EST_ERR_HTTP_INVALID_PATH_SEGMENT, o, None).
Proof.
  intros p brski label t r after Hp Hn Hs Ht Hl Hr. change (str "/.well-known/est/") with est_prefix in *.
  rewrite (full_spec p Hp brski label t r after Hs Ht Hn Hr).
  destruct label as [|x l]; [eauto|]. destruct Hl as [Hl|Hl]; [discriminate|].
  replace (128 <? len (x :: l)) with true by lia. eauto.
Qed.
Lemma uri_refuted : forall p brski after, path_parser p ->
  est_parse_uri_full p brski (str "/.well-knownX/establish/cacerts" ++ 0 :: after)
    = Ok (EST_ERR_NONE, OpSet (Some OP_CACERTS), None)
  /\ est_parse_uri_full p brski (str "/.well-known/est" ++ 0 :: after) = UB
  /\ est_parse_uri_full p brski (str "/" ++ 0 :: after) = Ok (EST_ERR_NONE, OpUnset, None)
  /\ est_parse_uri_full p brski (str "/.well-known/est/label" ++ 0 :: str "simpleenroll" ++ 0 :: after)
    = Ok (EST_ERR_NONE, OpSet (Some OP_SIMPLE_ENROLL), Some (str "label")).
Proof.
  intros p brski after Hp. split; [now apply full_prefix_only|]. split; [now apply full_null_deref|].
  split; [now apply full_root|].
  change (str "/.well-known/est/label") with (est_prefix ++ str "label" ++ []).
  assert (PL : Forall pchar (str "label")) by pchars.
  rewrite (full_spec p Hp brski (str "label") [] (seg_ranges 1 [wk_seg; est_seg; str "label"])).
  - change (len (str "label")) with 5. 
    destruct brski; reflexivity.
  - now apply pchar_no_sep.
  - now left.
  - vm_compute; intuition discriminate.
  - change (est_prefix ++ str "label" ++ []) with (path_text [wk_seg; est_seg; str "label"]).
    apply p_eval; [exact Hp|discriminate|discriminate|]. intros s [<-|[<-|[<-|[]]]]; pchars.
Qed.
Lemma uri_request_seg : forall p brski label c more r after o ps, path_parser p ->
  no_nul (label ++ c :: more) -> no_sep label -> sep c ->
  p (str "/.well-known/est/" ++ label ++ c :: more) = Some r ->
  est_parse_uri_full p brski ((str "/.well-known/est/" ++ label ++ c :: more) ++ 0 :: after) = Ok (EST_ERR_NONE, o, Some ps) ->
  ps = label /\ 1 <= len ps <= 128 /\ forall o', offered brski o' -> ~ same_ignoring_case ps (op_name o').
Proof.
  intros p brski label c more r after o ps Hp Hn Hs Hc Hr H.
  change (str "/.well-known/est/") with est_prefix in *.
  rewrite (full_spec p Hp brski label (c :: more) r after Hs) in H; [|eauto|exact Hn|exact Hr].
  destruct label as [|x l] eqn:EL; [discriminate|]. rewrite <- EL in *.
  assert (Hne : label <> []) by (rewrite EL; discriminate).
  assert (L1 : 1 <= len label) by (rewrite EL, len_cons; pose proof (len_nonneg _ l); lia). clear EL.
  destruct (128 <? len label) eqn:E; [discriminate|].
  destruct (est_parse_operation brski label) as [q|] eqn:EO; [discriminate|].
  unfold after_op in H. destruct (est_parse_operation brski more); [|discriminate]. inversion H; subst.
  split; [reflexivity|]. split; [lia|]. intros o' H1 H2.
  assert (est_parse_operation brski ps = Some o') by (apply parse_operation_spec; auto). congruence.
Qed.
