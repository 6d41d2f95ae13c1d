(** The client's handling of responses. *)
From Coq Require Import String ZArith List Bool Lia ZifyBool ZifyNat.
From Verif Require Import Base Spec.Http Spec.UriPath Spec.Server Spec.Client Model.CLib Model.EstErr Model.HttpServer Model.Uri Model.AuthHdr Model.ClientHttp
  Proofs.EstErr Proofs.HttpParse Proofs.HttpRender Proofs.Uri Proofs.ClientHeaders.
Import ListNotations.
Open Scope Z_scope.

(** ** The text of a block *)
Definition text (raw : bytes) : bytes := take_while (fun c => negb (c =? 0)) raw.
Lemma text_split : forall k raw, exists post a, raw ++ repeat 0 (S k) = text raw ++ 0 :: post /\ no_nul (text raw) /\ 0 :: post = a ++ repeat 0 (S k).
Proof.
  induction raw as [|c raw (post & a & E & N & P)].
  - exists (repeat 0 k), []. cbn. repeat split; auto. intros [].
  - unfold text in *. cbn [take_while]. destruct (c =? 0) eqn:C; cbn [negb].
    + exists (raw ++ repeat 0 (S k)), (0 :: raw). replace c with 0 by lia. repeat split. intros [].
    + exists post, a. cbn [app]. rewrite E. repeat split; auto. intros [I|I]; [lia|contradiction].
Qed.
Lemma text_plain : forall raw, no_nul raw -> text raw = raw.
Proof.
  induction raw as [|c raw IH]; intro N; auto. apply no_nul_cons in N as [C N]. unfold text in *. cbn [take_while]. replace (c =? 0) with false by lia.
  cbn [negb]. now rewrite IH.
Qed.
Lemma text_app : forall a b, no_nul a -> text (a ++ b) = a ++ text b.
Proof.
  induction a as [|c a IH]; intros b N; auto. apply no_nul_cons in N as [C N]. unfold text in *. cbn [take_while app]. replace (c =? 0) with false by lia.
  cbn [negb]. now rewrite IH.
Qed.
Lemma text_len : forall raw, len (text raw) <= len raw.
Proof. unfold text. induction raw as [|c raw IH]; cbn [take_while]; [lia|]. destruct (negb (c =? 0)); rewrite ?len_cons; [lia|]. pose proof (len_nonneg _ raw). change (len (@nil Z)) with 0. lia. Qed.

(** ** Header lines *)
Definition nl (x : bytes) : Prop := exists a c, x = a ++ [c] /\ (c = 13 \/ c = 10).
Lemma drop_while_hd : forall f s c t, drop_while f s = c :: t -> f c = false.
Proof. induction s as [|y s IH]; cbn [drop_while]; intros c t H; [discriminate|]. destruct (f y) eqn:F; [eauto|]. congruence. Qed.
Lemma take_while_all : forall f s, Forall (fun c => f c = true) (take_while f s).
Proof. induction s as [|y s IH]; cbn [take_while]; [constructor|]. destruct (f y) eqn:F; constructor; auto. Qed.
Lemma gap_cons : forall d w s, (gap d w s = [] /\ snd (cut d w s) = []) \/ exists c t, gap d w s = c :: t /\ In c d /\ Forall (fun x => In x w) t.
Proof.
  intros d w s. unfold gap, cut. cbn [snd]. destruct (drop_while (nd d) s) as [|c t] eqn:E; [now left|right].
  exists c, (take_while (fun x => memb x w) t). split; [reflexivity|]. split.
  - apply drop_while_hd in E. unfold nd in E. apply memb_In. destruct (memb c d); [reflexivity|discriminate].
  - eapply Forall_impl; [|apply take_while_all]. cbn. intros x I. now apply memb_In.
Qed.
Lemma cut_free : forall d w s x, In x d -> ~ In x (fst (cut d w s)).
Proof.
  intros d w s x I J. unfold cut in J. cbn [fst] in J. pose proof (take_while_all (nd d) s) as F. rewrite Forall_forall in F. specialize (F _ J).
  unfold nd in F. apply memb_In in I. rewrite I in F. discriminate.
Qed.
Lemma nl_gap : forall x c t, In c [13; 10] -> Forall (fun x => In x [13; 10]) t -> nl (x ++ c :: t).
Proof.
  intros x c t C F. assert (G : Forall (fun x => In x [13; 10]) (c :: t)) by (constructor; auto).
  destruct (exists_last (l := c :: t) ltac:(discriminate)) as (l & y & E). rewrite E in *. apply Forall_app in G as [_ G]. inversion G as [|? ? G1 _]; subst.
  exists (x ++ l), y. split; [now rewrite <- app_assoc|]. cbn in G1. intuition.
Qed.

Lemma chdrs_lines : forall n x0 s n0 e, (s <> [] -> nl x0) ->
  exists x, s = x ++ snd (chdrs n s n0 e)
  /\ Forall (fun h => snd h = [] \/ header_line (x0 ++ s) (fst h) (snd h) (snd (chdrs n s n0 e))) (fst (chdrs n s n0 e)).
Proof.
  induction n as [|n IH]; intros x0 s n0 e N; cbn [chdrs].
  - exists []. split; [reflexivity|constructor].
  - pose proof (cut_gap [58] [32] s) as E1. pose proof (gap_cons [58] [32] s) as G1.
    destruct (cut [58] [32] s) as [name r1] eqn:C1. cbn [fst snd] in *.
    pose proof (cut_gap [13; 10] [13; 10] r1) as E2. pose proof (gap_cons [13; 10] [13; 10] r1) as G2.
    pose proof (cut_free [13; 10] [13; 10] r1) as F2.
    destruct (cut [13; 10] [13; 10] r1) as [value r2] eqn:C2. cbn [fst snd] in *.
    set (g1 := gap [58] [32] s) in *. set (g2 := gap [13; 10] [13; 10] r1) in *.
    assert (N2 : r2 <> [] -> nl (x0 ++ name ++ g1 ++ value ++ g2)).
    { intro R. destruct G2 as [[_ G2]|(c & t & G2 & I & F)]; [contradiction|]. rewrite G2, !app_assoc. now apply nl_gap. }
    assert (H : forall rest, (exists y, r2 = y ++ rest) -> name <> [] -> value = [] \/ header_line (x0 ++ s) name value rest).
    { intros rest (y & R) Nn. destruct G1 as [[G1 R1]|(c & sp & G1 & I & F)].
      { left. clear - E2 R1. subst r1. destruct value; [reflexivity|discriminate]. }
      right. destruct N as (a & c0 & -> & N0). { intro Q. rewrite Q in C1. unfold cut in C1. cbn in C1. apply Nn. congruence. }
      exists a, c0, sp, (g2 ++ y). repeat split; auto.
      - rewrite E1, G1, E2, R. destruct I as [<-|[]]. rewrite <- !app_assoc. reflexivity.
      - eapply Forall_impl; [|exact F]. cbn. intuition.
      - apply F2. cbn. auto.
      - apply F2. cbn. auto.
      - destruct G2 as [[G2 R2]|(c1 & t & G2 & I2 & F')].
        + left. rewrite G2. rewrite R2 in R. symmetry in R. apply app_eq_nil in R as [-> ->]. cbn. auto.
        + right. exists (t ++ y). rewrite G2. cbn in I2. cbn [app]. destruct I2 as [<-|[<-|[]]]; auto. }
    destruct name as [|c name].
    + exists (g1 ++ value ++ g2). cbn [fst snd]. split; [|constructor]. rewrite E1, E2 at 1. cbn [app]. now rewrite <- !app_assoc.
    + destruct (past e (n0 - len r2)).
      * exists ((c :: name) ++ g1 ++ value ++ g2). cbn [fst snd]. split; [rewrite E1, E2 at 1; now rewrite <- !app_assoc|].
        constructor; [|constructor]. apply H; [exists []; reflexivity|discriminate].
      * destruct (IH (x0 ++ (c :: name) ++ g1 ++ value ++ g2) r2 n0 e N2) as (y & Ey & Fy).
        destruct (chdrs n r2 n0 e) as [l r]. cbn [fst snd] in *.
        exists ((c :: name) ++ g1 ++ value ++ g2 ++ y). split; [rewrite E1, E2, Ey at 1; now rewrite <- !app_assoc|].
        constructor; [apply H; [eauto|discriminate]|].
        replace (x0 ++ s) with ((x0 ++ (c :: name) ++ g1 ++ value ++ g2) ++ r2); [exact Fy|].
        rewrite E1, E2 at 1. now rewrite <- !app_assoc.
Qed.
Lemma resp_lines : forall w, exists x, w = x ++ snd (resp_text w)
  /\ Forall (fun h => snd h = [] \/ header_line w (fst h) (snd h) (snd (resp_text w))) (fst (resp_text w)).
Proof.
  intro w. unfold resp_text. pose proof (cut_gap [13; 10] [13; 10] w) as E. pose proof (gap_cons [13; 10] [13; 10] w) as G.
  destruct (cut [13; 10] [13; 10] w) as [l r]. cbn [fst snd] in *. set (g := gap [13; 10] [13; 10] w) in *.
  destruct (chdrs_lines 16 (l ++ g) r (len w) (find_sub [13; 10; 13; 10] w)) as (x & Ex & F).
  { intro R. destruct G as [[_ G]|(c & t & G & I & F)]; [contradiction|]. rewrite G. now apply nl_gap. }
  rewrite <- app_assoc, <- E in F. exists (l ++ g ++ x). split; [|exact F]. rewrite E at 1. rewrite Ex at 1. now rewrite <- !app_assoc.
Qed.

(** ** Content headers *)
Fixpoint check_text (ts : list (bytes * bytes)) (ct : bytes) (ctp : bool) (cl : option Z) : option (bool * option Z) :=
  match ts with
  | [] => Some (ctp, cl)
  | (n, v) :: r =>
    if beq n (str "Content-Type") then if prefixb ct v then check_text r ct true cl else None
    else if beq n (str "Content-Length") then check_text r ct ctp (Some (atoi v))
    else check_text r ct ctp cl
  end.
Lemma beq_nul : forall lit name q, no_nul lit -> no_nul name -> beq (firstn (S (length lit)) (name ++ 0 :: q)) (lit ++ [0]) = beq name lit.
Proof.
  induction lit as [|x lit IH]; intros [|y name] q Nl Nn; cbn [length app]; rewrite firstn_cons; cbn [beq].
  - reflexivity.
  - apply no_nul_cons in Nn as [Y _]. replace (y =? 0) with false by lia. reflexivity.
  - apply no_nul_cons in Nl as [X _]. replace (0 =? x) with false by lia. reflexivity.
  - apply no_nul_cons in Nl as [X Nl]. apply no_nul_cons in Nn as [Y Nn]. now rewrite IH.
Qed.
Lemma beq_prefix : forall lit name q, no_nul lit -> no_nul name -> beq (firstn (length lit) (name ++ 0 :: q)) lit = prefixb lit name.
Proof.
  induction lit as [|x lit IH]; intros [|y name] q Nl Nn; cbn [length firstn app beq prefixb]; auto.
  - apply no_nul_cons in Nl as [X _]. replace (0 =? x) with false by lia. reflexivity.
  - apply no_nul_cons in Nl as [X Nl]. apply no_nul_cons in Nn as [Y Nn]. rewrite IH by assumption. f_equal. lia.
Qed.
Lemma has_text_skip : forall m o t, has_text m o t -> exists q, skipn (Z.to_nat o) m = t ++ 0 :: q /\ no_nul t /\ o = len m - len (t ++ 0 :: q).
Proof.
  intros m o t (p & q & -> & N & ->). exists q. rewrite skipn_len_app. repeat split; auto. rewrite len_app. lia.
Qed.
Lemma memcmp_name : forall m o t lit, has_text m o t -> no_nul lit -> o + len lit + 1 <= len m ->
  memcmp_at m o (lit ++ [0]) = Ok (beq t lit).
Proof.
  intros m o t lit H N L. destruct (has_text_skip _ _ _ H) as (q & E & Nt & Eo). unfold memcmp_at, memcmp_eq. rewrite E, len_app.
  change (len [0]) with 1. replace (len lit + 1 <=? len (t ++ 0 :: q)) with true by lia. replace (len lit + 1 <=? len lit + 1) with true by lia.
  cbn [andb]. replace (Z.to_nat (len lit + 1)) with (S (length lit)) by (unfold len; lia).
  rewrite (firstn_all2 (lit ++ [0])) by (rewrite app_length; cbn; lia). now rewrite beq_nul.
Qed.
Lemma memcmp_value : forall m o t lit, has_text m o t -> no_nul lit -> o + len lit <= len m ->
  memcmp_at m o lit = Ok (prefixb lit t).
Proof.
  intros m o t lit H N L. destruct (has_text_skip _ _ _ H) as (q & E & Nt & Eo). unfold memcmp_at, memcmp_eq. rewrite E.
  replace (len lit <=? len (t ++ 0 :: q)) with true by lia. replace (len lit <=? len lit) with true by lia.
  cbn [andb]. replace (Z.to_nat (len lit)) with (length lit) by (unfold len; lia). rewrite firstn_all. now rewrite beq_prefix.
Qed.

Lemma no_nul_lit : forall l, forallb (fun c => negb (c =? 0)) l = true -> no_nul l.
Proof. intros l F I. rewrite forallb_forall in F. specialize (F _ I). cbn in F. discriminate. Qed.
Lemma ct_facts : forall op, no_nul (op_content_type op) /\ len (op_content_type op) <= 45.
Proof. intro op. split; [apply no_nul_lit; destruct op; reflexivity|]. apply Z.leb_le. destruct op; vm_compute; reflexivity. Qed.

Lemma check_loop_text : forall m n0 hs ts ct ctp cl, Forall2 (shows m n0) hs ts -> n0 + 45 <= len m -> no_nul ct -> len ct <= 45 ->
  check_loop m hs ct ctp cl = Ok (check_text ts ct ctp cl).
Proof.
  intros m n0 hs ts ct ctp cl F L Nc Lc. revert ctp cl. induction F as [|[n v] [tn tv] hs ts (Hn & Hv & Bn & Bv) F IH]; intros ctp cl; [reflexivity|].
  cbn [check_loop check_text fst snd] in *.
  rewrite (memcmp_name m n tn (str "Content-Type") Hn) by (first [apply no_nul_lit; reflexivity | change (len (str "Content-Type")) with 12; lia]).
  cbn [bind]. destruct (beq tn (str "Content-Type")).
  - rewrite (memcmp_value m v tv ct Hv Nc) by lia. cbn [bind]. destruct (prefixb ct tv); [apply IH|reflexivity].
  - rewrite (memcmp_name m n tn (str "Content-Length") Hn) by (first [apply no_nul_lit; reflexivity | change (len (str "Content-Length")) with 14; lia]).
    cbn [bind]. destruct (beq tn (str "Content-Length")).
    + rewrite (has_text_cstr _ _ _ Hv). apply IH.
    + apply IH.
Qed.

Fixpoint retry_text (ts : list (bytes * bytes)) (rv : est_error) (c : cctx) : est_error * cctx :=
  match ts with
  | [] => (rv, c)
  | (n, v) :: r =>
    if casecmp_upper n (str "Retry-After") && negb (isalpha (hd 0 v)) && strisdigit_s v && (strtoll v <=? INT_MAX)
    then retry_text r EST_ERR_CA_ENROLL_RETRY (set_delay (strtoll v) c)
    else retry_text r rv c
  end.
Lemma retry_loop_text : forall m n0 hs ts rv c, Forall2 (shows m n0) hs ts -> retry_loop m hs rv c = Ok (retry_text ts rv c).
Proof.
  intros m n0 hs ts rv c F. revert rv c. induction F as [|[n v] [tn tv] hs ts (Hn & Hv & _) F IH]; intros rv c; [reflexivity|].
  cbn [retry_loop retry_text fst snd] in *. rewrite (has_text_cstr _ _ _ Hn). cbn [bind].
  destruct (casecmp_upper tn (str "Retry-After")); cbn [andb]; [|apply IH].
  rewrite (has_text_cstr _ _ _ Hv). cbn [bind]. destruct (isalpha (hd 0 tv)); cbn [andb negb]; [apply IH|].
  destruct (strisdigit_s tv); cbn [andb]; [|apply IH]. destruct (strtoll tv <=? INT_MAX); apply IH.
Qed.

(** ** Challenges: the parser stays within a block that ends with zeros *)
Definition zeros (k : nat) : bytes := repeat 0 k.
Definition good (k : nat) (s : bytes) : Prop := exists a, s = a ++ zeros (S k).
Lemma good_tail : forall k c s, good k (c :: s) -> c <> 0 -> good k s.
Proof. intros k c s ([|x a] & E) C; unfold zeros in E; cbn [app repeat] in E; [exfalso; congruence|]. exists a. unfold zeros. cbn [repeat]. congruence. Qed.
Lemma good_nil : forall k, ~ good k [].
Proof. intros k ([|x a] & E); discriminate. Qed.
Ltac nogood := match goal with H : good _ [] |- _ => destruct (good_nil _ H) end.

Lemma ht_sep_good : forall k s, good k s -> exists p, ht_sep s = Ok p /\ good k p /\ (length p <= length s)%nat
  /\ match p with [] => False | c :: _ => c = 0 \/ field_sep c = false end.
Proof.
  induction s as [|c t IH]; intro G; [nogood|]. cbn [ht_sep]. destruct (negb (c =? 0) && field_sep c) eqn:E.
  - destruct (IH (good_tail _ _ _ G ltac:(lia))) as (p & H & G' & L & M). exists p. repeat split; auto. cbn [length]. lia.
  - exists (c :: t). repeat split; auto. destruct (field_sep c); [left; lia|now right].
Qed.
Lemma ht_until_good : forall q k n s, (length s <= n)%nat -> good k s -> exists x r, ht_until q s = Ok (x, r) /\ good k r /\ s = x ++ r /\ no_nul x.
Proof.
  induction n as [|n IH]; intros s L G; (destruct s as [|c t]; [nogood|]); [cbn in L; lia|]. cbn [ht_until].
  destruct ((c =? 0) || (c =? q)) eqn:E. { exists [], (c :: t). repeat split; auto. intros []. }
  assert (C : c <> 0) by lia. pose proof (good_tail _ _ _ G C) as Gt.
  destruct (c =? 92) eqn:B.
  - destruct t as [|d t']; [nogood|]. destruct (d =? 0) eqn:D.
    { exists [c], (d :: t'). repeat split; auto. intros [I|[]]; congruence. }
    destruct (IH t') as (x & r & H & G' & E' & N); [cbn in L; lia|apply (good_tail _ _ _ Gt); lia|]. rewrite H. exists (c :: d :: x), r.
    repeat split; auto; [cbn; congruence|]. intros [I|[I|I]]; [congruence|lia|contradiction].
  - destruct (IH t) as (x & r & H & G' & E' & N); [cbn in L; lia|assumption|]. rewrite H. exists (c :: x), r.
    repeat split; auto; [cbn; congruence|]. intros [I|I]; [congruence|contradiction].
Qed.
Lemma ht_word_good : forall k s, good k s -> exists x r, ht_word s = Ok (x, r) /\ good k r /\ s = x ++ r /\ no_nul x
  /\ match s with [] => False | c :: _ => c <> 0 -> field_sep c = false -> x <> [] end.
Proof.
  induction s as [|c t IH]; intro G; [nogood|]. cbn [ht_word]. destruct ((c =? 0) || field_sep c) eqn:E.
  - exists [], (c :: t). repeat split; auto. { intros []. } intros C F. rewrite F in E. lia.
  - destruct (IH (good_tail _ _ _ G ltac:(lia))) as (x & r & H & G' & E' & N & _). rewrite H. exists (c :: x), r. repeat split; auto.
    + cbn. congruence.
    + intros [I|I]; [lia|contradiction].
    + discriminate.
Qed.
Lemma ht_end_good : forall k start x r, good k r -> exists o, ht_end start (x, r) = Ok (Some (x, start), o) /\ good k o /\ (length o <= length r)%nat.
Proof.
  intros k start x [|c t] G; [nogood|]. unfold ht_end. exists (if c =? 0 then c :: t else t). split; [reflexivity|]. destruct (c =? 0) eqn:C; [split; auto|].
  split; [apply (good_tail _ _ _ G); lia|cbn; lia].
Qed.

(** Either at least [k + 2] zeros remain at the end, or nothing but zeros. *)
Definition tidy (k : nat) (s : bytes) : Prop := good (S k) s \/ exists j, s = zeros (S j).
Lemma tidy_zero : forall f j, HTNextField (S f) (zeros (S j)) = Ok (None, zeros (S j)).
Proof. reflexivity. Qed.
Lemma HTNextField_good : forall k f s, (length s < f)%nat -> tidy k s ->
  exists o r, HTNextField f s = Ok (o, r) /\ tidy k r
    /\ match o with None => (length r <= length s)%nat | Some (x, start) => (length r < length s)%nat /\ (x = [] \/ (S k < length start)%nat) end.
Proof.
  intro k. induction f as [|f IH]; intros s L [G|(j & ->)]; [lia|lia| |].
  2: { exists None, (zeros (S j)). rewrite tidy_zero. repeat split; [right; eauto|auto]. }
  cbn [HTNextField]. destruct (ht_sep_good _ _ G) as (p & -> & Gp & Lp & M). cbn [bind].
  destruct p as [|c t]; [contradiction|]. destruct (c =? 0) eqn:C. { exists None, (c :: t). repeat split; auto. now left. }
  assert (C0 : c <> 0) by lia. destruct M as [M|M]; [contradiction|]. pose proof (good_tail _ _ _ Gp C0) as Gt. cbn [length] in Lp.
  assert (Len : forall s', good (S k) s' -> (S k < length s')%nat) by (intros s' (a & ->); unfold zeros; rewrite app_length, repeat_length; lia).
  assert (U : forall q, exists o r, bind (ht_until q t) (fun r => ht_end t r) = Ok (o, r) /\ tidy k r
    /\ match o with None => (length r <= length s)%nat | Some (x, start) => (length r < length s)%nat /\ (x = [] \/ (S k < length start)%nat) end).
  { intro q. destruct (ht_until_good q (S k) (length t) t (le_n _) Gt) as (x & r & -> & Gr & E & N). cbn [bind].
    destruct (ht_end_good (S k) t x r Gr) as (o & -> & Go & Lo). exists (Some (x, t)), o. split; [reflexivity|]. split; [now left|]. split; [|right; auto].
    rewrite E, app_length in Lp. lia. }
  destruct (c =? 34); [apply U|]. destruct (c =? 60); [apply U|]. destruct (c =? 40) eqn:P.
  - replace c with 40 in * by lia.
    destruct (ht_until_good 41 (S k) (length (40 :: t)) (40 :: t) (le_n _) Gp) as (x & r & E & Gr & Ex & N). rewrite E. cbn [bind].
    destruct r as [|d r']; [nogood|].
    assert (X : x <> []). { intros ->. cbn in E. destruct t as [|? ?]; [nogood|]. cbn [app] in Ex. assert (d = 40) by congruence. subst d.
      assert (Q : ht_until 41 (40 :: z :: t) = (' (x, r) <- ht_until 41 (z :: t) ;; Ok (40 :: x, r))) by reflexivity.
      change (ht_until 41 (40 :: z :: t) = Ok ([], 40 :: r')) in E. rewrite Q in E. destruct (ht_until 41 (z :: t)) as [[? ?]|]; discriminate. }
    assert (Lr : (length r' < length t)%nat). { destruct x; [contradiction|]. cbn in Ex. assert (t = x ++ d :: r') by congruence. subst t. rewrite app_length. cbn. lia. }
    assert (Tr : tidy k r').
    { destruct Gr as ([|y a] & Er); cbn [app] in Er; [right; exists k; cbn in Er; cbn; congruence|left; exists a; congruence]. }
    destruct (IH r' ltac:(lia) Tr) as (o & r & H & T & O). rewrite H. exists o, r. split; [reflexivity|]. split; [assumption|].
    destruct o as [[x' st]|]; [|lia]. destruct O. split; [lia|assumption].
  - destruct (ht_word_good _ _ Gp) as (x & r & -> & Gr & E & N & X). cbn [bind].
    destruct (ht_end_good (S k) (c :: t) x r Gr) as (o & -> & Go & Lo). exists (Some (x, c :: t)), o. split; [reflexivity|]. split; [now left|].
    split; [|right; apply Len; exact Gp]. specialize (X C0 M). destruct x as [|y x]; [contradiction|]. cbn in E.
    assert (t = x ++ r) by congruence. subst t. rewrite app_length in Lp. lia.
Qed.
Lemma next_field_good : forall k s, tidy k s -> exists o r, next_field s = Ok (o, r) /\ tidy k r
  /\ match o with None => (length r <= length s)%nat | Some (x, start) => (length r < length s)%nat /\ (x = [] \/ (S k < length start)%nat) end.
Proof. intros k s T. apply HTNextField_good; auto. Qed.

Definition same_but_tokens (c c' : cctx) : Prop := k_mode c' = k_mode c /\ k_delay c' = k_delay c /\ k_status c' = k_status c.
Lemma auth_tokens_good : forall f s c, (length s < f)%nat -> tidy 3 s ->
  exists rv c', auth_tokens f s c = Ok (rv, c') /\ same_but_tokens c c' /\ (rv = EST_ERR_NONE \/ rv = EST_ERR_INVALID_TOKEN).
Proof.
  induction f as [|f IH]; intros s c L T; [lia|]. cbn [auth_tokens].
  destruct (next_field_good 3 s T) as (o & s1 & -> & T1 & O). cbn [bind].
  destruct o as [[token st]|]. 2: { exists EST_ERR_NONE, c. repeat split; auto. }
  destruct O as [L1 _].
  assert (Next : forall s2 c2, (length s2 <= length s1)%nat -> tidy 3 s2 -> same_but_tokens c c2 ->
    exists rv c', auth_tokens f s2 c2 = Ok (rv, c') /\ same_but_tokens c c' /\ (rv = EST_ERR_NONE \/ rv = EST_ERR_INVALID_TOKEN)).
  { intros s2 c2 L2 T2 (M1 & M2 & M3). destruct (IH s2 c2 ltac:(lia) T2) as (rv & c' & E & (N1 & N2 & N3) & R). exists rv, c'.
    split; [exact E|]. split; [|exact R]. repeat split; congruence. }
  assert (Inv : exists rv c', Ok (EST_ERR_INVALID_TOKEN, set_nonce [] c) = Ok (rv, c') /\ same_but_tokens c c' /\ (rv = EST_ERR_NONE \/ rv = EST_ERR_INVALID_TOKEN)).
  { exists EST_ERR_INVALID_TOKEN, (set_nonce [] c). repeat split; auto. }
  destruct (next_field_good 3 s1 T1) as (v & s2 & E2 & T2 & O2).
  assert (L2 : (length s2 <= length s1)%nat) by (destruct v as [[? ?]|]; [destruct O2|]; lia).
  assert (Sm : forall c2, k_mode c2 = k_mode c -> k_delay c2 = k_delay c -> k_status c2 = k_status c -> same_but_tokens c c2) by (intros; repeat split; auto).
  destruct (est_strcaseeq_s token (str "realm")). { rewrite E2. cbn [bind]. destruct v; [apply Next; auto|exact Inv]. }
  destruct (est_strcaseeq_s token (str "nonce")). { rewrite E2. cbn [bind]. destruct v; [apply Next; auto|exact Inv]. }
  destruct (est_strcaseeq_s token (str "qop")).
  { rewrite E2. cbn [bind]. destruct v as [[x start]|]; [|exact Inv]. cbn [fst snd].
    replace (match x with [] => true | _ :: _ => 5 <=? len start end) with true; [apply Next; auto|].
    destruct x; [reflexivity|]. destruct O2 as [_ [O2|O2]]; [discriminate|]. unfold len. lia. }
  destruct (est_strcaseeq_s token (str "algorithm")).
  { rewrite E2. cbn [bind]. destruct v as [[x start]|]; [|apply Next; auto]. destruct (est_strcaseeq_s _ _); [apply Next; auto|exact Inv]. }
  destruct (est_strcaseeq_s token (str "error")). { rewrite E2. cbn [bind]. destruct v; [apply Next; auto|exact Inv]. }
  destruct (est_strcaseeq_s token (str "error_description")). { rewrite E2. cbn [bind]. destruct v; [apply Next; auto|exact Inv]. }
  apply Next; auto.
Qed.
Lemma parse_auth_tokens_good : forall s c, tidy 3 s -> exists rv c', est_io_parse_auth_tokens s c = Ok (rv, c') /\ same_but_tokens c c'.
Proof.
  intros s c T. unfold est_io_parse_auth_tokens. destruct (next_field_good 3 s T) as (o & s1 & -> & T1 & O). cbn [bind].
  destruct (auth_tokens_good (S (length s1)) s1 c ltac:(lia) T1) as (rv & c' & E & S & _). eauto.
Qed.

Lemma auth_request_good : forall m n0 hs ts c, Forall2 (shows m n0) hs ts -> (forall v, 0 <= v <= n0 -> tidy 3 (skipn (Z.to_nat v) m)) ->
  exists c', est_io_parse_http_auth_request m hs c = Ok c' /\ k_delay c' = k_delay c /\ k_status c' = k_status c
  /\ In (k_mode c') [AUTH_FAIL; AUTH_BASIC; AUTH_DIGEST; AUTH_TOKEN].
Proof.
  intros m n0 hs ts c F T. induction F as [|[n v] [tn tv] hs ts (Hn & Hv & Bn & Bv) F IH].
  - exists (set_mode AUTH_FAIL c). cbn. auto.
  - cbn [est_io_parse_http_auth_request fst snd] in *. rewrite (has_text_cstr _ _ _ Hn). cbn [bind].
    destruct (strncmp_eq 16 tn (str "WWW-Authenticate")); [|exact IH]. rewrite (has_text_cstr _ _ _ Hv). cbn [bind].
    assert (Tk : forall mode, In mode [AUTH_FAIL; AUTH_BASIC; AUTH_DIGEST; AUTH_TOKEN] -> exists c',
      (' (rv, c') <- est_io_parse_auth_tokens (skipn (Z.to_nat v) m) (set_mode mode c) ;;
        Ok (if err_eqb rv EST_ERR_NONE then c' else set_mode AUTH_FAIL c')) = Ok c' /\ k_delay c' = k_delay c /\ k_status c' = k_status c
      /\ In (k_mode c') [AUTH_FAIL; AUTH_BASIC; AUTH_DIGEST; AUTH_TOKEN]).
    { intros mode Im. destruct (parse_auth_tokens_good _ (set_mode mode c) (T v Bv)) as (rv & c' & -> & (S1 & S2 & S3)). cbn [bind].
      destruct (err_eqb rv EST_ERR_NONE); eexists; (split; [reflexivity|]).
      - rewrite S1, S2, S3. cbn [k_delay k_status k_mode set_mode]. auto.
      - cbn [k_delay k_status k_mode set_mode]. rewrite S2, S3. cbn. auto. }
    destruct (strncmp_eq 5 tv (str "Basic")); [apply Tk; cbn; auto|]. destruct (strncmp_eq 6 tv (str "Digest")); [apply Tk; cbn; auto|].
    destruct (strncmp_eq 6 tv (str "Bearer")); [apply Tk; cbn; auto|]. exists (set_mode AUTH_FAIL c). cbn. auto.
Qed.

(** ** The response as a whole *)
Definition body_result (ts : list (bytes * bytes)) (b : bytes) (op : operation) : est_error * delivery :=
  match check_text ts (op_content_type op) false None with
  | Some (true, Some cl) =>
    if cl =? len b then (EST_ERR_NONE, Deliver (if cl =? 0 then None else Some b) cl) else (EST_ERR_HTTP_UNSUPPORTED, Deliver None 0)
  | _ => (EST_ERR_HTTP_UNSUPPORTED, Deliver None 0)
  end.
Lemma prefixb_zeros : forall lit raw k, no_nul lit -> prefixb lit (raw ++ repeat 0 k) = prefixb lit raw.
Proof.
  induction lit as [|x lit IH]; intros raw k N; [reflexivity|]. apply no_nul_cons in N as [X N].
  destruct raw as [|y raw]; cbn [app prefixb]; [|now rewrite IH]. destruct k; cbn [repeat prefixb]; [reflexivity|]. replace (x =? 0) with false by lia. reflexivity.
Qed.
Lemma first_status_zeros : forall raw k, first_status status_codes (raw ++ repeat 0 k) = first_status status_codes raw.
Proof. intros. unfold status_codes. cbn [first_status]. rewrite !prefixb_zeros by (apply no_nul_lit; reflexivity). reflexivity. Qed.

Lemma block_post : forall m post, let w := text m in let cur := len w - len (snd (resp_text w)) in m = w ++ 0 :: post ->
  exists m1 hs, parse_response_headers m = Ok (m1, cur, hs) /\ len m1 = len m /\ (length hs <= 16)%nat
  /\ Forall2 (shows m1 (len w)) hs (fst (resp_text w)) /\ 0 <= cur <= len w /\ skipn (Z.to_nat cur) m1 = skipn (Z.to_nat cur) m
  /\ (forall v, 0 <= v <= len w -> exists a, skipn (Z.to_nat v) m1 = a ++ 0 :: post).
Proof.
  intros m post w cur E. assert (N : no_nul w). { intro I. unfold w, text in I. pose proof (take_while_all (fun c => negb (c =? 0)) m) as F.
    rewrite Forall_forall in F. specialize (F _ I). cbn in F. discriminate. }
  destruct (parse_response_headers_spec w post N) as (s' & pre' & hs & H & L & M & N' & Lh & F). rewrite <- E in H.
  pose proof (len_nonneg _ (snd (resp_text w))) as L0. pose proof (len_nonneg _ pre') as L1.
  exists (s' ++ 0 :: post), hs. rewrite H. unfold cur. replace (len w - len (snd (resp_text w))) with (len pre') by lia.
  repeat split; auto; try lia.
  - rewrite E, !len_app. lia.
  - rewrite M, skipn_len_app. destruct (resp_lines w) as (x & Ex & _). rewrite E. rewrite Ex at 2. rewrite <- app_assoc.
    replace (len pre') with (len x); [now rewrite skipn_len_app|]. pose proof (f_equal (@len Z) Ex) as Q. rewrite len_app in Q. lia.
  - intros v Hv. exists (skipn (Z.to_nat v) s'). rewrite skipn_app.
    replace (Z.to_nat v - length s')%nat with 0%nat by (unfold len in L; unfold len in Hv; lia). reflexivity.
Qed.
Lemma text_zeros : forall raw k, text (raw ++ repeat 0 k) = text raw.
Proof.
  unfold text. induction raw as [|c raw IH]; intro k; cbn [app take_while]; [destruct k; reflexivity|]. now rewrite IH.
Qed.
Lemma block_run : forall raw k, let w := text raw in let cur := len w - len (snd (resp_text w)) in let m := raw ++ repeat 0 (S k) in
  exists m1 hs, parse_response_headers m = Ok (m1, cur, hs) /\ len m1 = len m /\ (length hs <= 16)%nat
  /\ Forall2 (shows m1 (len w)) hs (fst (resp_text w)) /\ 0 <= cur <= len w /\ skipn (Z.to_nat cur) m1 = skipn (Z.to_nat cur) m
  /\ (forall v, 0 <= v <= len w -> exists a, skipn (Z.to_nat v) m1 = a ++ repeat 0 (S k)).
Proof.
  intros raw k w cur m. destruct (text_split k raw) as (post & a & E & N & P). pose proof (block_post m post) as B. cbv zeta in B.
  unfold m in B. rewrite text_zeros in B. destruct (B E) as (m1 & hs & B1 & B2 & B3 & B4 & B5 & B6 & B7). exists m1, hs. repeat split; auto; try apply B5.
  intros v Hv. destruct (B7 v Hv) as (b & ->). exists (b ++ a). rewrite P, app_assoc. reflexivity.
Qed.

Definition the_text (raw : bytes) : list (bytes * bytes) := fst (resp_text (text raw)).
Definition the_body (raw : bytes) : bytes := skipn (Z.to_nat (len (text raw) - len (snd (resp_text (text raw))))) raw.
Lemma body_there : forall (m : bytes) cur cl, 0 <= cur -> 0 < cl -> (len (firstn (Z.to_nat cl) (skipn (Z.to_nat cur) m)) =? cl) = (cur + cl <=? len m).
Proof. intros. unfold len. rewrite firstn_length, skipn_length. lia. Qed.
Lemma body_run : forall raw m1 hs op, let w := text raw in let cur := len w - len (snd (resp_text w)) in
  len m1 = EST_CA_MAX -> len raw + 45 <= EST_CA_MAX -> Forall2 (shows m1 (len w)) hs (the_text raw) -> 0 <= cur <= len w ->
  skipn (Z.to_nat cur) m1 = skipn (Z.to_nat cur) (raw ++ repeat 0 (Z.to_nat (EST_CA_MAX - len raw))) ->
  response_body m1 hs (len raw) cur op = Ok (body_result (the_text raw) (the_body raw) op).
Proof.
  intros raw m1 hs op w cur Lm Lr F C Sk. unfold response_body, est_io_check_http_hdrs, body_result.
  destruct (ct_facts op) as [Nc Lc]. pose proof (text_len raw) as Lt. fold w in Lt.
  rewrite (check_loop_text m1 (len w) hs (the_text raw) _ false None F ltac:(lia) Nc Lc). cbn [bind].
  assert (Lb : len (the_body raw) = len raw - cur). { unfold the_body. fold w. fold cur. rewrite len_skipn. lia. }
  pose proof (len_nonneg _ (the_body raw)) as B0.
  destruct (check_text _ _ _ _) as [[[|] [cl|]]|]; cbn [bind]; try reflexivity.
  change (err_eqb EST_ERR_NONE EST_ERR_NONE) with true. cbv iota. rewrite Lb in *.
  destruct (cl =? len raw - cur) eqn:E.
  - replace (EST_CA_MAX <? cl) with false by lia. replace (cl <? 0) with false by lia. cbn [negb].
    destruct (cl =? 0) eqn:Z0; [replace cl with 0 by lia; reflexivity|]. cbv zeta. rewrite body_there by lia. replace (cur + cl <=? len m1) with true by lia. do 2 f_equal.
    rewrite Sk. replace cl with (len (the_body raw)) by lia. f_equal. f_equal.
    unfold the_body. fold w. fold cur. rewrite skipn_app. replace (Z.to_nat cur - length raw)%nat with 0%nat by (unfold len in *; lia).
    cbn [skipn]. apply firstn_len_app.
  - cbn [negb]. destruct (EST_CA_MAX <? cl); [reflexivity|]. destruct (cl <? 0); reflexivity.
Qed.

Lemma read_arrives : forall evs d, arrives evs d -> len d < EST_CA_MAX -> est_io_read_raw evs [] = (EST_ERR_NONE, d).
Proof.
  intros evs d (segs & rest & -> & F & <-) L. change (concat segs) with ([] ++ concat segs). apply read_raw_segs; auto.
Qed.
Lemma read_arrived_acc : forall evs acc raw, est_io_read_raw evs acc = (EST_ERR_NONE, raw) ->
  exists segs rest, evs = map Data segs ++ Data [] :: rest /\ Forall (fun p => p <> []) segs /\ acc ++ concat segs = raw.
Proof.
  induction evs as [|[d|] evs IH]; intros acc raw H; try discriminate. cbn [est_io_read_raw] in H.
  destruct (len d =? 0) eqn:E0; [injection H as <-; exists [], evs; destruct d; [|rewrite len_cons in E0; pose proof (len_nonneg _ d); lia]; cbn; rewrite app_nil_r; auto|].
  assert (Nd : d <> []) by (intros ->; discriminate).
  destruct (len d <? EST_CA_MAX - len acc).
  - apply IH in H as (segs & rest & -> & F & <-). exists (d :: segs), rest. cbn [map concat]. rewrite app_assoc. auto.
  - destruct (len d =? EST_CA_MAX - len acc); [|discriminate]. destruct evs as [|[[|x d']|] evs]; try discriminate.
    apply pair_equal_spec in H as [_ <-]. exists [d], evs. cbn. rewrite app_nil_r. auto.
Qed.
Lemma read_arrived : forall evs raw, est_io_read_raw evs [] = (EST_ERR_NONE, raw) -> arrives evs raw.
Proof. intros evs raw H. apply read_arrived_acc in H. exact H. Qed.

Lemma read_sound : forall evs raw, est_io_read_raw evs [] = (EST_ERR_NONE, raw) -> exists segs rest, evs = map Data segs ++ Data [] :: rest /\ concat segs = raw.
Proof.
  intros evs raw H. destruct (read_raw_result evs [] EST_ERR_NONE raw) as (_ & _ & R); [reflexivity|exact H|].
  destruct (R eq_refl) as (segs & rest & E & Q). exists segs, rest. auto.
Qed.

Definition mode_used (md : auth_mode) : bool := match md with AUTH_DIGEST | AUTH_BASIC | AUTH_TOKEN => true | _ => false end.
Lemma retry_text_errors : forall ts rv c, In (fst (retry_text ts rv c)) [rv; EST_ERR_CA_ENROLL_RETRY].
Proof.
  induction ts as [|[n v] ts IH]; intros rv c; cbn [retry_text]; [cbn; auto|]. destruct (_ && _); [|apply IH].
  specialize (IH EST_ERR_CA_ENROLL_RETRY (set_delay (strtoll v) c)). cbn in IH |- *. intuition.
Qed.

Theorem response_run : forall evs raw op c, est_io_read_raw evs [] = (EST_ERR_NONE, raw) -> 0 < len raw -> len raw + 45 <= EST_CA_MAX ->
  let st := first_status status_codes raw in
  exists rv d c', est_io_get_response evs op c = Ok (rv, d, c')
  /\ (st = 200 -> c' = set_status 200 c /\ (rv, d) = if status_only op then (EST_ERR_NONE, Untouched) else body_result (the_text raw) (the_body raw) op)
  /\ (st = 202 -> (rv, c') = retry_text (the_text raw) EST_ERR_INVALID_RETRY_VALUE (set_delay 0 (set_status 202 c)) /\ d = Untouched)
  /\ (st = 401 -> rv = EST_ERR_AUTH_FAIL /\ d = Untouched /\ k_delay c' = k_delay c /\ k_status c' = 401
       /\ In (k_mode c') [AUTH_FAIL; AUTH_BASIC; AUTH_DIGEST; AUTH_TOKEN] /\ (mode_used (k_mode c) = true -> c' = set_mode AUTH_FAIL (set_status 401 c)))
  /\ (st <> 200 -> st <> 202 -> st <> 401 -> rv = status_error st /\ d = Untouched /\ c' = set_status st c).
Proof.
  intros evs raw op c R P L st. unfold est_io_get_response. rewrite R. change (negb (err_eqb EST_ERR_NONE EST_ERR_NONE)) with false. cbv iota.
  replace (len raw <=? 0) with false by lia. unfold est_io_parse_response_status_code. rewrite first_status_zeros. fold st.
  replace (Z.to_nat (EST_CA_MAX - len raw)) with (S (Z.to_nat (EST_CA_MAX - len raw - 1))) by lia.
  destruct (block_run raw (Z.to_nat (EST_CA_MAX - len raw - 1))) as (m1 & hs & E & Lm & Lh & F & B & Sk & T). rewrite E. cbn [bind].
  assert (Lm' : len m1 = EST_CA_MAX) by (rewrite Lm, len_app, len_repeat; lia).
  assert (Td : forall v, 0 <= v <= len (text raw) -> tidy 3 (skipn (Z.to_nat v) m1)).
  { intros v Hv. left. destruct (T v Hv) as (a & ->). exists (a ++ repeat 0 (Z.to_nat (EST_CA_MAX - len raw) - 5)).
    unfold zeros. rewrite <- app_assoc. f_equal. rewrite <- repeat_app. f_equal. lia. }
  pose proof (body_run raw m1 hs op Lm' L F B) as Br. cbv zeta in Br.
  replace (Z.to_nat (EST_CA_MAX - len raw)) with (S (Z.to_nat (EST_CA_MAX - len raw - 1))) in Br by lia. specialize (Br Sk).
  fold (the_text raw) in F. unfold status_result.
  assert (St : In st (-1 :: status_codes)).
  { unfold st. generalize status_codes as l. induction l as [|x l IH]; cbn [first_status]; [now left|]. destruct (prefixb _ _); [right; now left|].
    destruct IH as [IH|IH]; [now left|right; now right]. }
  assert (Done : forall rv, rv <> EST_ERR_NONE -> err_eqb rv EST_ERR_NONE = false).
  { intros rv N. apply not_true_is_false. intro Q. apply err_eqb_eq in Q. contradiction. }
  clearbody st. cbn [status_codes In] in St.
  destruct (Z.eqb_spec st 200) as [->|N200].
  { cbn [bind]. change (err_eqb EST_ERR_NONE EST_ERR_NONE) with true. cbv iota. destruct (status_only op).
    - exists EST_ERR_NONE, Untouched, (set_status 200 c). split; [reflexivity|]. split; [auto|]. split; [discriminate|]. split; [discriminate|]. intros; congruence.
    - rewrite Br. cbn [bind]. destruct (body_result (the_text raw) (the_body raw) op) as [rv d]. exists rv, d, (set_status 200 c).
      split; [reflexivity|]. split; [auto|]. split; [discriminate|]. split; [discriminate|]. intros; congruence. }
  destruct (Z.eqb_spec st 202) as [->|N202].
  { change (202 =? 204) with false. change (202 =? 404) with false. cbv iota.
    unfold est_io_parse_http_retry_after_resp. rewrite (retry_loop_text _ _ _ _ _ _ F). cbn [bind].
    pose proof (retry_text_errors (the_text raw) EST_ERR_INVALID_RETRY_VALUE (set_delay 0 (set_status 202 c))) as I.
    destruct (retry_text _ _ _) as [rv c1]. cbn [fst] in I.
    cbn [bind]. rewrite Done by (destruct I as [<-|[<-|[]]]; discriminate). exists rv, Untouched, c1. split; [reflexivity|]. split; [intro; discriminate|]. split; [auto|]. split; [discriminate|]. intros; congruence. }
  destruct (Z.eqb_spec st 401) as [->|N401].
  { change (401 =? 204) with false. change (401 =? 404) with false. change (401 =? 400) with false. cbv iota.
    assert (G : exists c1, match k_mode (set_status 401 c) with
      | AUTH_DIGEST | AUTH_BASIC | AUTH_TOKEN => Ok (EST_ERR_AUTH_FAIL, set_mode AUTH_FAIL (set_status 401 c))
      | _ => c' <- est_io_parse_http_auth_request m1 hs (set_status 401 c) ;; Ok (EST_ERR_AUTH_FAIL, c')
      end = Ok (EST_ERR_AUTH_FAIL, c1) /\ k_delay c1 = k_delay c /\ k_status c1 = 401 /\ In (k_mode c1) [AUTH_FAIL; AUTH_BASIC; AUTH_DIGEST; AUTH_TOKEN]
      /\ (mode_used (k_mode c) = true -> c1 = set_mode AUTH_FAIL (set_status 401 c))).
    { destruct (auth_request_good m1 _ hs _ (set_status 401 c) F Td) as (c1 & Q & D1 & D2 & D3). rewrite Q. cbn [bind k_mode set_status].
      destruct (k_mode c); cbn [mode_used];
        first [ exists c1; repeat split; auto; discriminate | exists (set_mode AUTH_FAIL (set_status 401 c)); repeat split; auto; cbn; auto ]. }
    destruct G as (c1 & -> & D1 & D2 & D3 & D4). cbn [bind].
    rewrite Done by discriminate.
    exists EST_ERR_AUTH_FAIL, Untouched, c1. split; [reflexivity|]. split; [intro; discriminate|]. split; [intro; discriminate|]. split; [intros _; split; [reflexivity|]; split; [reflexivity|]; auto|]. intros _ _ N; destruct (N eq_refl). }
  repeat (destruct St as [<-|St]; [first [congruence|cbn [Z.eqb Pos.eqb bind]; rewrite Done by discriminate; eexists _, _, _;
    (split; [reflexivity|]); (split; [intro; discriminate|]); (split; [intro; discriminate|]); (split; [intro; discriminate|]); auto]|]). contradiction.
Qed.

(** ** Anything delivered was announced *)
Lemma memcmp_name' : forall m o t lit b, has_text m o t -> no_nul lit -> memcmp_at m o (lit ++ [0]) = Ok b -> b = beq t lit.
Proof.
  intros m o t lit b H N E. assert (L : o + len lit + 1 <= len m).
  { destruct (has_text_skip _ _ _ H) as (q & Es & Nt & Eo). unfold memcmp_at, memcmp_eq in E. rewrite Es, len_app in E. change (len [0]) with 1 in E.
    destruct (len lit + 1 <=? len (t ++ 0 :: q)) eqn:Q; [lia|discriminate]. }
  rewrite (memcmp_name m o t lit H N L) in E. congruence.
Qed.
Lemma memcmp_value' : forall m o t lit b, has_text m o t -> no_nul lit -> memcmp_at m o lit = Ok b -> b = prefixb lit t.
Proof.
  intros m o t lit b H N E. assert (L : o + len lit <= len m).
  { destruct (has_text_skip _ _ _ H) as (q & Es & Nt & Eo). unfold memcmp_at, memcmp_eq in E. rewrite Es in E.
    destruct (len lit <=? len (t ++ 0 :: q)) eqn:Q; [lia|discriminate]. }
  rewrite (memcmp_value m o t lit H N L) in E. congruence.
Qed.
Lemma check_loop_text' : forall m n0 hs ts ct ctp cl r, Forall2 (shows m n0) hs ts -> no_nul ct ->
  check_loop m hs ct ctp cl = Ok r -> r = check_text ts ct ctp cl.
Proof.
  intros m n0 hs ts ct ctp cl r F Nc. revert ctp cl. induction F as [|[n v] [tn tv] hs ts (Hn & Hv & Bn & Bv) F IH]; intros ctp cl H.
  - cbn in H |- *. congruence.
  - cbn [check_loop check_text fst snd] in *.
    destruct (memcmp_at m n (str "Content-Type" ++ [0])) as [b|] eqn:E1; [|discriminate]. cbn [bind] in H.
    rewrite (memcmp_name' m n tn (str "Content-Type") b Hn ltac:(apply no_nul_lit; reflexivity) E1) in H.
    destruct (beq tn (str "Content-Type")).
    + destruct (memcmp_at m v ct) as [b2|] eqn:E2; [|discriminate]. cbn [bind] in H. rewrite (memcmp_value' m v tv ct b2 Hv Nc E2) in H.
      destruct (prefixb ct tv); [now apply IH|congruence].
    + destruct (memcmp_at m n (str "Content-Length" ++ [0])) as [b2|] eqn:E2; [|discriminate]. cbn [bind] in H.
      rewrite (memcmp_name' m n tn (str "Content-Length") b2 Hn ltac:(apply no_nul_lit; reflexivity) E2) in H.
      destruct (beq tn (str "Content-Length")); [|now apply IH]. rewrite (has_text_cstr _ _ _ Hv) in H. now apply IH.
Qed.
Lemma check_text_some : forall ts ct ctp cl ctp' cl', check_text ts ct ctp cl = Some (ctp', cl') ->
  (ctp' = true -> ctp = true \/ exists v, In (str "Content-Type", v) ts /\ prefixb ct v = true)
  /\ (cl' = cl \/ exists v, In (str "Content-Length", v) ts /\ cl' = Some (atoi v)).
Proof.
  induction ts as [|[n v] ts IH]; intros ct ctp cl ctp' cl' H; cbn [check_text] in H.
  - assert (ctp = ctp') by congruence. assert (cl = cl') by congruence. subst. auto.
  - destruct (beq n (str "Content-Type")) eqn:E1.
    { apply beq_eq in E1. subst n. destruct (prefixb ct v) eqn:Q; [|discriminate]. apply IH in H as [H1 H2]. split.
      - intros ->. right. exists v. split; [now left|assumption].
      - destruct H2 as [H2|(x & I & H2)]; [now left|right; exists x; split; [now right|assumption]]. }
    destruct (beq n (str "Content-Length")) eqn:E2.
    { apply beq_eq in E2. subst n. apply IH in H as [H1 H2]. split.
      - intro T. destruct (H1 T) as [H|(x & I & H)]; [now left|right; exists x; split; [now right|assumption]].
      - right. destruct H2 as [->|(x & I & H2)]; [exists v; split; [now left|reflexivity]|exists x; split; [now right|assumption]]. }
    apply IH in H as [H1 H2]. split.
    + intro T. destruct (H1 T) as [H|(x & I & H)]; [now left|right; exists x; split; [now right|assumption]].
    + destruct H2 as [H2|(x & I & H2)]; [now left|right; exists x; split; [now right|assumption]].
Qed.

Lemma text_rest : forall raw, exists t, raw = text raw ++ t /\ hd 0 t = 0.
Proof.
  unfold text. induction raw as [|c raw (t & E & H)]; [exists []; auto|]. cbn [take_while]. destruct (c =? 0) eqn:C; cbn [negb].
  - exists (c :: raw). cbn. split; [reflexivity|lia].
  - exists t. cbn [app]. rewrite <- E. auto.
Qed.
Lemma raw_lines : forall raw, exists head, raw = head ++ the_body raw
  /\ Forall (fun h => snd h = [] \/ header_line raw (fst h) (snd h) (the_body raw)) (the_text raw).
Proof.
  intro raw. destruct (resp_lines (text raw)) as (x & Ex & F). destruct (text_rest raw) as (t & Et & Ht).
  set (w := text raw) in *. set (rest := snd (resp_text w)) in *.
  assert (B : the_body raw = rest ++ t).
  { unfold the_body. fold w. fold rest. rewrite Et. rewrite Ex at 2. replace (len w - len rest) with (len x) by (rewrite Ex, len_app; lia).
    rewrite <- app_assoc. apply skipn_len_app. }
  exists x. rewrite B. split; [rewrite Et, Ex at 1; now rewrite <- app_assoc|]. eapply Forall_impl; [|exact F].
  intros [n v] [H|H]; [now left|right]. cbn [fst snd] in *. destruct H as (a & c & sp & b & E & C & Sp & N1 & N2 & T).
  exists a, c, sp, b. rewrite Et, E. repeat split; auto.
  - rewrite <- !app_assoc. cbn [app]. rewrite <- !app_assoc. cbn [app]. rewrite <- !app_assoc. reflexivity.
  - destruct T as [[-> T]|T]; [left|now right]. split; [reflexivity|]. destruct rest; [exact Ht|exact T].
Qed.

Lemma response_body_sound : forall m1 raw hs op rv d, let w := text raw in let cur := len w - len (snd (resp_text w)) in
  len raw <= EST_CA_MAX -> Forall2 (shows m1 (len w)) hs (the_text raw) -> 0 <= cur <= len w ->
  skipn (Z.to_nat cur) m1 = skipn (Z.to_nat cur) (raw ++ repeat 0 (Z.to_nat (EST_CA_MAX - len raw))) ->
  response_body m1 hs (len raw) cur op = Ok (rv, d) -> (rv, d) = body_result (the_text raw) (the_body raw) op /\ (rv = EST_ERR_NONE -> len (the_body raw) <= EST_CA_MAX).
Proof.
  intros m1 raw hs op rv d w cur Lr F C Sk H. unfold response_body, est_io_check_http_hdrs in H. unfold body_result.
  destruct (ct_facts op) as [Nc Lc]. pose proof (text_len raw) as Lt. fold w in Lt.
  destruct (check_loop m1 hs (op_content_type op) false None) as [r|] eqn:Q; [|discriminate]. cbn [bind] in H.
  rewrite (check_loop_text' _ _ _ _ _ _ _ _ F Nc Q) in H. clear Q r.
  assert (Lb : len (the_body raw) = len raw - cur). { unfold the_body. fold w. fold cur. rewrite len_skipn. lia. }
  pose proof (len_nonneg _ (the_body raw)) as B0.
  destruct (check_text _ _ _ _) as [[[|] [cl|]]|]; cbn [bind] in H;
    try (change (err_eqb EST_ERR_HTTP_UNSUPPORTED EST_ERR_NONE) with false in H; cbv iota in H; split; [congruence|intros ->; discriminate]).
  change (err_eqb EST_ERR_NONE EST_ERR_NONE) with true in H. cbv iota in H. rewrite Lb in *.
  destruct (EST_CA_MAX <? cl) eqn:E1. { replace (cl =? len raw - cur) with false by lia. split; [congruence|intros ->; discriminate]. }
  destruct (cl <? 0) eqn:E2. { replace (cl =? len raw - cur) with false by lia. split; [congruence|intros ->; discriminate]. }
  destruct (cl =? len raw - cur) eqn:E; cbn [negb] in H; [|split; [congruence|intros ->; discriminate]]. split; [|intros _; lia].
  destruct (cl =? 0) eqn:Z0; [replace cl with 0 by lia; congruence|]. cbv zeta in H. rewrite body_there in H by lia. destruct (cur + cl <=? len m1) eqn:E3; [|discriminate].
  assert (Q : firstn (Z.to_nat cl) (skipn (Z.to_nat cur) m1) = the_body raw).
  2: { rewrite Q in H. clear - H. inversion H. reflexivity. }
  rewrite Sk. replace cl with (len (the_body raw)) by lia.
  unfold the_body. fold w. fold cur. rewrite skipn_app. replace (Z.to_nat cur - length raw)%nat with 0%nat by (unfold len in *; lia).
  cbn [skipn]. apply firstn_len_app.
Qed.

Lemma cstr_none : forall m, ~ In 0 m -> cstr m = UB.
Proof. induction m as [|c m IH]; intro N; [reflexivity|]. cbn [cstr]. destruct (c =? 0) eqn:C; [exfalso; apply N; left; lia|]. rewrite IH; [reflexivity|]. intro. apply N. now right. Qed.
Lemma parse_any : forall m r, parse_response_headers m = Ok r -> exists post, m = text m ++ 0 :: post.
Proof.
  intros m r P. destruct (text_rest m) as (t & Et & Ht). destruct t as [|z t]; [|cbn in Ht; subst z; eauto].
  exfalso. unfold parse_response_headers in P. replace (cstr_at m 0) with (@UB bytes) in P; [discriminate|]. symmetry. rewrite cstr_at_len.
  replace ((0 <=? 0) && (0 <=? len m)) with true by (pose proof (len_nonneg _ m); lia). cbn [Z.to_nat skipn]. apply cstr_none.
  rewrite app_nil_r in Et. rewrite Et. intro I. unfold text in I. pose proof (take_while_all (fun c => negb (c =? 0)) m) as F.
  rewrite Forall_forall in F. specialize (F _ I). cbn in F. discriminate.
Qed.
Lemma status_200 : forall raw, first_status status_codes raw = 200 -> exists t, raw = str "HTTP/1.1 200" ++ t.
Proof.
  intros raw H. apply prefixb_spec. unfold status_codes in H. cbn [first_status] in H.
  change (str "HTTP/1.1 " ++ print_int 200) with (str "HTTP/1.1 200") in H.
  destruct (prefixb (str "HTTP/1.1 200") raw); [reflexivity|]. repeat (destruct (prefixb _ raw); [discriminate|]). discriminate.
Qed.

Theorem delivered_sound : forall evs op c rv b n c', est_io_get_response evs op c = Ok (rv, Deliver (Some b) n, c') ->
  rv = EST_ERR_NONE /\ n = len b /\ 0 < n <= 2000000
  /\ exists d head ct cl, arrives evs d /\ d = head ++ b
     /\ (exists t, d = str "HTTP/1.1 200" ++ t)
     /\ header_line d (str "Content-Type") (op_content_type op ++ ct) b
     /\ header_line d (str "Content-Length") cl b /\ atoi cl = n.
Proof.
  intros evs op c rv b n c' H. unfold est_io_get_response in H.
  destruct (est_io_read_raw evs []) as [rv0 raw] eqn:R. destruct (read_raw_result evs [] rv0 raw ltac:(reflexivity) R) as (_ & Lr & _).
  destruct (negb (err_eqb rv0 EST_ERR_NONE)) eqn:N0; [discriminate|]. apply negb_false_iff, err_eqb_eq in N0. subst rv0.
  pose proof (read_arrived _ _ R) as Ar. clear R.
  destruct (len raw <=? 0) eqn:L0; [discriminate|].
  remember (raw ++ repeat 0 (Z.to_nat (EST_CA_MAX - len raw))) as m eqn:Em.
  destruct (parse_response_headers m) as [[[m1 cur] hs]|] eqn:P; [|discriminate]. cbn [bind] in H.
  destruct (parse_any _ _ P) as (t & Et). pose proof (block_post m t) as B. cbv zeta in B. destruct (B Et) as (m1' & hs' & P' & B2 & B3 & B4 & B5 & B6 & B7). clear B.
  rewrite P in P'. assert (m1' = m1) by congruence. assert (hs' = hs) by congruence.
  assert (Tm : text m = text raw) by (subst m; apply text_zeros). rewrite Tm in *.
  assert (Ec : cur = len (text raw) - len (snd (resp_text (text raw)))) by congruence. subst m1' hs' cur. clear P P'.
  destruct (status_result m1 hs _ _) as [[rv1 c1]|] eqn:St; [|discriminate]. cbn [bind] in H.
  destruct (err_eqb rv1 EST_ERR_NONE) eqn:E1; [|congruence]. apply err_eqb_eq in E1. subst rv1.
  destruct (status_only op); [congruence|].
  destruct (response_body m1 hs (len raw) _ op) as [[rv' d']|] eqn:Rb; [|discriminate]. cbn [bind] in H.
  assert (rv' = rv) by congruence. assert (d' = Deliver (Some b) n) by congruence. subst rv' d'. clear H.
  rewrite Em in B6. destruct (response_body_sound m1 raw hs op rv (Deliver (Some b) n) Lr B4 B5 B6 Rb) as [Q Lb]. clear Rb.
  unfold body_result in Q. destruct (check_text _ _ _ _) as [[[|] [cl|]]|] eqn:Ct; try congruence.
  destruct (cl =? len (the_body raw)) eqn:El; [|congruence]. destruct (cl =? 0) eqn:Z0; [congruence|].
  assert (rv = EST_ERR_NONE) by congruence. assert (b = the_body raw) by congruence. assert (n = cl) by congruence. subst rv b n. clear Q.
  pose proof (len_nonneg _ (the_body raw)) as P0. specialize (Lb eq_refl). unfold EST_CA_MAX in Lb.
  split; [reflexivity|]. split; [lia|]. split; [lia|].
  apply check_text_some in Ct as [C1 C2]. destruct (C1 eq_refl) as [C|(vt & It & Pt)]; [discriminate|]. destruct C2 as [C|(vl & Il & Pl)]; [discriminate|].
  destruct (raw_lines raw) as (head & Er & F). rewrite Forall_forall in F. apply prefixb_spec in Pt as (x & Ex).
  exists raw, head, x, vl. repeat split; auto.
  - apply status_200. revert St. unfold est_io_parse_response_status_code. rewrite Em, first_status_zeros. unfold status_result.
    destruct (first_status status_codes raw =? 200) eqn:S2; [lia|]. intro St. exfalso.
    repeat (match type of St with (if ?b then _ else _) = _ => destruct b; [try congruence|] end); try congruence.
    + unfold est_io_parse_http_retry_after_resp in St. rewrite (retry_loop_text _ _ _ _ _ _ B4) in St.
      pose proof (retry_text_errors (fst (resp_text (text raw))) EST_ERR_INVALID_RETRY_VALUE (set_delay 0 (set_status (first_status status_codes raw) c))) as I.
      destruct (retry_text _ _ _) as [r q]. cbn [fst] in I. assert (r = EST_ERR_NONE) by congruence. subst r. destruct I as [I|[I|[]]]; discriminate.
    + destruct (k_mode _); try congruence; destruct (est_io_parse_http_auth_request m1 hs _); discriminate.
  - destruct (F _ It) as [C|C]; cbn [fst snd] in C; [|rewrite <- Ex; exact C]. exfalso. rewrite C in Ex. destruct op; discriminate.
  - destruct (F _ Il) as [C|C]; cbn [fst snd] in C; [|exact C]. exfalso. rewrite C in Pl. assert (cl = 0) by (change (atoi []) with 0 in Pl; congruence). lia.
  - congruence.
Qed.
Lemma error_no_body : forall evs op c rv d c', est_io_get_response evs op c = Ok (rv, d, c') -> rv <> EST_ERR_NONE -> d = Untouched \/ d = Deliver None 0.
Proof.
  intros evs op c rv d c' H N. destruct d as [|[b|] n]; [now left| |].
  - apply delivered_sound in H as (H & _). contradiction.
  - right. f_equal. unfold est_io_get_response in H.
    destruct (est_io_read_raw evs []) as [rv0 raw]. destruct (negb _); [congruence|]. destruct (len raw <=? 0); [congruence|].
    destruct (parse_response_headers _) as [[[m1 cur] hs]|]; [|discriminate]. cbn [bind] in H.
    destruct (status_result _ _ _ _) as [[rv1 c1]|]; [|discriminate]. cbn [bind] in H. destruct (err_eqb rv1 _); [|congruence].
    destruct (status_only op); [congruence|]. unfold response_body in H.
    destruct (est_io_check_http_hdrs m1 hs op) as [[r cl]|]; [|discriminate]. cbn [bind] in H.
    destruct (err_eqb r _); [|cbn [bind] in H; congruence].
    destruct (EST_CA_MAX <? cl); [cbn [bind] in H; congruence|]. destruct (cl <? 0); [cbn [bind] in H; congruence|].
    destruct (negb _); [cbn [bind] in H; congruence|]. destruct (cl =? 0); [cbn [bind] in H; congruence|]. cbv zeta in H. destruct (len _ =? cl); cbn [bind] in H; congruence.
Qed.
