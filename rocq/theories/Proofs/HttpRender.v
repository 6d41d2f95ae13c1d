(** Requests written by a client are parsed back exactly. *)
From Coq Require Import String ZArith List Bool Lia ZifyBool ZifyNat.
From Verif Require Import Base Model.CLib Model.HttpServer Spec.Http Spec.Uri Spec.HttpConn
  Proofs.HttpParse Proofs.HttpConn Proofs.HttpUri.
Import ListNotations.
Open Scope Z_scope.

Lemma strcaseeq_spec : forall a b, strcaseeq a b = true <-> case_eq a b.
Proof.
  unfold case_eq. induction a as [|x a IH]; intros [|y b]; cbn; split; intro H; try easy.
  - apply andb_true_iff in H as [H1 H2]. apply IH in H2. rewrite H2. f_equal. lia.
  - inversion H. apply andb_true_iff. split; [lia|]. now apply IH.
Qed.

Lemma case_eq_sym : forall a b, case_eq a b -> case_eq b a.
Proof. unfold case_eq. auto. Qed.

Theorem get_header_first : forall hs name v,
  get_header hs name = Some v <-> first_header hs name v.
Proof.
  induction hs as [|[n x] hs IH]; intros name v; cbn [get_header].
  - split; [discriminate|]. intros (h1 & n & h2 & E & _). destruct h1; discriminate.
  - destruct (strcaseeq name n) eqn:E.
    + apply strcaseeq_spec in E. split.
      * intro H. inversion H; subst. exists [], n, hs. repeat split; auto. now apply case_eq_sym.
      * intros (h1 & n' & h2 & Ehs & Hc & Hf). destruct h1 as [|h h1]; inversion Ehs; subst; [reflexivity|].
        inversion Hf; subst. cbn in *. exfalso. auto using case_eq_sym.
    + assert (Hne : ~ case_eq n name) by (intro Hc; apply case_eq_sym, strcaseeq_spec in Hc; congruence).
      rewrite IH. split.
      * intros (h1 & n' & h2 & -> & Hc & Hf). exists ((n, x) :: h1), n', h2. repeat split; auto.
      * intros (h1 & n' & h2 & Ehs & Hc & Hf). destruct h1 as [|h h1]; inversion Ehs; subst; [contradiction|].
        inversion Hf; subst. exists h1, n', h2. auto.
Qed.

Theorem get_header_none : forall hs name, get_header hs name = None <-> no_header hs name.
Proof.
  unfold no_header. induction hs as [|[n x] hs IH]; intro name; cbn [get_header].
  - split; [constructor|reflexivity].
  - destruct (strcaseeq name n) eqn:E.
    + apply strcaseeq_spec in E. split; [discriminate|]. intro H. inversion H; subst. cbn in *.
      exfalso. auto using case_eq_sym.
    + rewrite IH. split; intro H.
      * constructor; [|assumption]. cbn. intro Hc. apply case_eq_sym, strcaseeq_spec in Hc. congruence.
      * now inversion H.
Qed.

(** ** Framing of a rendered head *)
Lemma grl_line : forall line c rest off, Forall (fun c => 32 <= c <= 126) line -> 32 <= c <= 126 ->
  0 <= off ->
  grl (line ++ 13 :: 10 :: c :: rest) off = grl (c :: rest) (off + len line + 2).
Proof.
  induction line as [|a line IH]; intros c rest off Hl Hc Ho.
  - cbn [app]. rewrite grl_eq. change (bad_req_char 13) with false. cbv iota.
    change ((13 =? LF) && (10 =? LF)) with false. change ((13 =? LF) && (10 =? CR)) with false. cbn [andb].
    rewrite grl_eq. change (bad_req_char 10) with false. cbv iota. unfold LF, CR.
    replace ((10 =? 10) && (c =? 10)) with false by lia. replace ((10 =? 10) && (c =? 13)) with false by lia.
    cbn [andb]. f_equal. unfold len. cbn. lia.
  - inversion Hl as [|? ? Ha Hl']; subst. cbn [app].
    assert (E : exists b u, line ++ 13 :: 10 :: c :: rest = b :: u).
    { destruct line; cbn; eauto. }
    destruct E as (b & u & E). rewrite E, grl_eq, <- E.
    replace (bad_req_char a) with false by (unfold bad_req_char, isprint, CR, LF; lia).
    unfold LF, CR. replace (a =? 10) with false by lia. cbn [andb].
    rewrite IH by (auto || lia). f_equal. rewrite len_cons. lia.
Qed.

Lemma grl_last : forall line t off, Forall (fun c => 32 <= c <= 126) line -> 0 <= off ->
  grl (line ++ 13 :: 10 :: 13 :: 10 :: t) off = off + len line + 4.
Proof.
  induction line as [|a line IH]; intros t off Hl Ho.
  - cbn [app]. rewrite grl_eq. change (bad_req_char 13) with false. cbv iota.
    change ((13 =? LF) && (10 =? LF)) with false. change ((13 =? LF) && (10 =? CR)) with false. cbn [andb].
    rewrite grl_eq. change (bad_req_char 10) with false. cbv iota.
    change ((10 =? LF) && (13 =? LF)) with false. change ((10 =? LF) && (13 =? CR) && (10 =? LF)) with true.
    cbv iota. unfold len. cbn. lia.
  - inversion Hl as [|? ? Ha Hl']; subst. cbn [app].
    assert (E : exists b u, line ++ 13 :: 10 :: 13 :: 10 :: t = b :: u).
    { destruct line; cbn; eauto. }
    destruct E as (b & u & E). rewrite E, grl_eq, <- E.
    replace (bad_req_char a) with false by (unfold bad_req_char, isprint, CR, LF; lia).
    unfold LF, CR. replace (a =? 10) with false by lia. cbn [andb].
    rewrite IH by (auto || lia). rewrite len_cons. lia.
Qed.

Definition wf_hdr (h : bytes * bytes) : Prop := header_name (fst h) /\ header_value (snd h).

Lemma wf_hdr_line : forall h, wf_hdr h -> exists c u, 33 <= c <= 126 /\ Forall (fun c => 32 <= c <= 126) u
  /\ fst h ++ str ": " ++ snd h = c :: u.
Proof.
  intros [n v] [[[Hn Ht] _] [Hv _]]. cbn [fst snd] in *.
  destruct n as [|c n]; [congruence|]. inversion Ht; subst. cbn [app].
  exists c, (n ++ str ": " ++ v). repeat split; try (unfold token_byte in *; lia).
  apply Forall_app. split.
  - eapply Forall_impl; [|eassumption]. unfold token_byte. cbn. intros; lia.
  - change (str ": ") with [58; 32]. cbn [app]. repeat constructor; try lia. assumption.
Qed.

Lemma grl_headers : forall hs line t off, Forall wf_hdr hs ->
  Forall (fun c => 32 <= c <= 126) line -> 0 <= off ->
  grl (line ++ CRLF ++ concat (map render_header hs) ++ CRLF ++ t) off
  = off + len line + 4 + len (concat (map render_header hs)).
Proof.
  induction hs as [|h hs IH]; intros line t off Hh Hl Ho.
  - cbn [map concat app]. change (CRLF ++ CRLF ++ t) with (13 :: 10 :: 13 :: 10 :: t).
    rewrite grl_last by assumption. unfold len at 3. cbn. lia.
  - inversion Hh as [|? ? H1 H2]; subst. cbn [map concat].
    destruct (wf_hdr_line h H1) as (c & u & Hc & Hu & E).
    unfold render_header at 1. 
    replace (fst h ++ str ": " ++ snd h ++ CRLF) with ((fst h ++ str ": " ++ snd h) ++ CRLF) by (now rewrite <- !app_assoc).
    rewrite E. rewrite <- !app_assoc. cbn [app].
    unfold CRLF at 1. cbn [app]. rewrite grl_line by (assumption || lia).
    change (c :: u ++ CRLF ++ concat (map render_header hs) ++ CRLF ++ t)
      with ((c :: u) ++ CRLF ++ concat (map render_header hs) ++ CRLF ++ t).
    pose proof (len_nonneg _ line).
    rewrite IH; [|assumption|constructor; [lia|assumption]|lia].
    rewrite len_app. unfold render_header at 2.
    replace (fst h ++ str ": " ++ snd h ++ CRLF) with ((fst h ++ str ": " ++ snd h) ++ CRLF) by (now rewrite <- !app_assoc).
    rewrite E, len_app. change (len CRLF) with 2. lia.
Qed.

Definition wf_line (meth uri ver : bytes) : Prop :=
  token meth /\ token uri /\ token ver.

Lemma token_print : forall s, token s -> Forall (fun c => 32 <= c <= 126) s.
Proof. intros s [_ H]. eapply Forall_impl; [|exact H]. unfold token_byte. cbn. intros; lia. Qed.

Theorem get_request_len_render : forall meth uri ver hs t,
  wf_line meth uri ver -> Forall wf_hdr hs ->
  get_request_len (render_head meth uri ver hs ++ t) = len (render_head meth uri ver hs).
Proof.
  intros meth uri ver hs t (Hm & Hu & Hv) Hh. unfold get_request_len, render_head.
  replace ((meth ++ str " " ++ uri ++ str " " ++ ver ++ CRLF ++ concat (map render_header hs) ++ CRLF) ++ t)
    with ((meth ++ [32] ++ uri ++ [32] ++ ver) ++ CRLF ++ concat (map render_header hs) ++ CRLF ++ t)
    by (change (str " ") with [32]; now rewrite <- !app_assoc).
  rewrite grl_headers; [|assumption| |lia].
  - rewrite !len_app. change (len CRLF) with 2. change (len (str " ")) with 1. change (len [32]) with 1. lia.
  - apply Forall_app; split; [now apply token_print|]. constructor; [lia|].
    apply Forall_app; split; [now apply token_print|]. constructor; [lia|]. now apply token_print.
Qed.

(** ** Parsing *)
Lemma cut_exact : forall d w a x g rest,
  Forall (fun c => memb c d = false) a -> memb x d = true ->
  Forall (fun c => memb c w = true) g ->
  match rest with [] => True | c :: _ => memb c w = false end ->
  cut d w (a ++ x :: g ++ rest) = (a, rest).
Proof.
  intros d w a x g rest Ha Hx Hg Hr. unfold cut, nd.
  assert (Ha' : Forall (fun c => negb (memb c d) = true) a).
  { eapply Forall_impl; [|exact Ha]. cbn. intros c Hc. now rewrite Hc. }
  rewrite take_while_app_all, drop_while_app_all by exact Ha'.
  cbn [take_while drop_while]. rewrite Hx. cbn [negb]. rewrite app_nil_r. f_equal.
  rewrite drop_while_app_all by exact Hg. destruct rest; [reflexivity|]. cbn. now rewrite Hr.
Qed.

Lemma cut_all : forall d w a, Forall (fun c => memb c d = false) a -> cut d w a = (a, []).
Proof.
  intros d w a Ha. unfold cut, nd.
  assert (Ha' : Forall (fun c => negb (memb c d) = true) a).
  { eapply Forall_impl; [|exact Ha]. cbn. intros c Hc. now rewrite Hc. }
  pose proof (take_while_app_all _ a [] Ha') as E1. pose proof (drop_while_app_all _ a [] Ha') as E2.
  rewrite app_nil_r in E1, E2. cbn in E1, E2. rewrite E1, E2, app_nil_r. reflexivity.
Qed.

Lemma memb_false : forall c l, memb c l = false <-> ~ In c l.
Proof.
  intros. rewrite <- memb_In. destruct (memb c l); split; intro H; congruence.
Qed.

Definition hd_rest (hs : list (bytes * bytes)) : bytes :=
  match hs with [] => [] | _ => concat (map render_header hs) ++ [13] end.

Lemma hd_rest_start : forall hs, Forall wf_hdr hs ->
  match hd_rest hs with [] => True | c :: _ => memb c [13; 10] = false end.
Proof.
  intros [|h hs] H; [exact I|]. inversion H; subst.
  destruct (wf_hdr_line h H2) as (c & u & Hc & _ & E). unfold hd_rest. cbn [map concat].
  unfold render_header at 1.
  replace (fst h ++ str ": " ++ snd h ++ CRLF) with ((fst h ++ str ": " ++ snd h) ++ CRLF) by (now rewrite <- !app_assoc).
  rewrite E. cbn. lia.
Qed.

Lemma tail_rest : forall hs, exists g, Forall (fun c => memb c [13; 10] = true) g
  /\ 10 :: concat (map render_header hs) ++ [13] = g ++ hd_rest hs.
Proof.
  intros [|h hs].
  - exists [10; 13]. split; [repeat constructor|reflexivity].
  - exists [10]. split; [repeat constructor|reflexivity].
Qed.

Lemma hdrs_text_render : forall hs n, Forall wf_hdr hs -> (length hs <= n)%nat ->
  hdrs_text n (hd_rest hs) = hs.
Proof.
  induction hs as [|h hs IH]; intros n Hh Hn.
  - destruct n; reflexivity.
  - destruct n as [|n]; [cbn in Hn; lia|]. cbn in Hn. inversion Hh as [|? ? H1 H2]; subst.
    unfold hd_rest. cbn [map concat hdrs_text]. destruct h as [nm v].
    destruct H1 as [[[Hne Hnt] Hnc] [Hv Hv0]]. cbn [fst snd] in *.
    unfold render_header at 1. cbn [fst snd].
    destruct (tail_rest hs) as (g & Hg & Eg).
    replace (((nm ++ str ": " ++ v ++ CRLF) ++ concat (map render_header hs)) ++ [13])
      with (nm ++ 58 :: [32] ++ (v ++ 13 :: g ++ hd_rest hs)).
    2:{ rewrite <- Eg. change (str ": ") with [58; 32]. unfold CRLF. rewrite <- !app_assoc. reflexivity. }
    rewrite cut_exact.
    + rewrite cut_exact.
      * destruct nm as [|c nm]; [congruence|]. f_equal. apply IH; [assumption|lia].
      * eapply Forall_impl; [|exact Hv]. cbn. intros; lia.
      * reflexivity.
      * exact Hg.
      * now apply hd_rest_start.
    + apply Forall_forall. intros c Hc. apply memb_false. intros [<-|[]]. contradiction.
    + reflexivity.
    + repeat constructor.
    + destruct v as [|c v]; [reflexivity|]. cbn in Hv0. cbn. lia.
Qed.

Theorem req_text_render : forall meth uri ver hs,
  wf_line meth uri ver -> Forall wf_hdr hs -> (length hs <= 64)%nat ->
  req_text (firstn (Z.to_nat (len (render_head meth uri ver hs) - 1)) (render_head meth uri ver hs))
  = (meth, uri, ver, hs).
Proof.
  intros meth uri ver hs (Hm & Hu & Hv) Hh Hn.
  assert (E : firstn (Z.to_nat (len (render_head meth uri ver hs) - 1)) (render_head meth uri ver hs)
     = meth ++ [32] ++ uri ++ [32] ++ ver ++ 13 :: 10 :: concat (map render_header hs) ++ [13]).
  { set (p := meth ++ [32] ++ uri ++ [32] ++ ver ++ 13 :: 10 :: concat (map render_header hs) ++ [13]).
    assert (E : render_head meth uri ver hs = p ++ [10]).
    { unfold render_head, p, CRLF. change (str " ") with [32]. repeat (rewrite <- !app_assoc; cbn [app]). reflexivity. }
    rewrite E, len_app. replace (len p + len [10] - 1) with (len p) by (unfold len; cbn; lia).
    apply firstn_len_app. }
  rewrite E. clear E. unfold req_text.
  destruct (tail_rest hs) as (g & Hg & Eg). rewrite Eg. clear Eg.
  assert (D : forall s d, token s -> Forall (fun c => c < 33) d -> Forall (fun c => memb c d = false) s).
  { intros s d [_ Ht] Hd. rewrite Forall_forall in *. intros c Hc. apply memb_false. intro Hi.
    apply Ht in Hc. apply Hd in Hi. unfold token_byte in Hc. lia. }
  assert (F : forall s t, token s -> drop_while isspace (s ++ t) = s ++ t).
  { intros [|c s] t [H1 H2]; [congruence|]. inversion H2; subst. cbn. unfold token_byte in *.
    replace (isspace c) with false by (unfold isspace; lia). reflexivity. }
  assert (G : forall s t, token s -> match s ++ t with [] => True | c :: _ => memb c [32] = false end).
  { intros [|c s] t [H1 H2]; [congruence|]. inversion H2; subst. cbn. unfold token_byte in *. lia. }
  rewrite F by assumption.
  change (meth ++ [32] ++ uri ++ [32] ++ ver ++ 13 :: g ++ hd_rest hs)
    with (meth ++ 32 :: [] ++ (uri ++ 32 :: [] ++ (ver ++ 13 :: g ++ hd_rest hs))).
  rewrite cut_exact; auto. 2:{ apply D; auto. repeat constructor. }
  rewrite cut_exact; auto. 2:{ apply D; auto. repeat constructor. }
  rewrite cut_exact; auto using hd_rest_start. 2:{ apply D; auto. repeat constructor. }
  - rewrite hdrs_text_render; auto.
  - now apply hd_rest_start.
  - exact (G ver _ Hv).
  - exact (G uri _ Hu).
Qed.

(** ** Keep-alive *)
Lemma strncmp3_full : forall a, len a = 3 -> forall b, len b = 3 -> strncmp_eq 3 a b = true -> a = b.
Proof.
  intros a Ha b Hb. destruct a as [|a1 [|a2 [|a3 [|]]]]; rewrite ?len_cons, ?len_nil in Ha; pose proof (len_nonneg Z) as P;
  try (unfold len in Ha; cbn in Ha; lia).
  destruct b as [|b1 [|b2 [|b3 [|]]]]; try (unfold len in Hb; cbn in Hb; lia).
  cbn. intro H. repeat (apply andb_true_iff in H as [? H]). repeat f_equal; lia.
Qed.

Theorem should_keep_alive_spec : forall ka st hs ver,
  (ver = str "HTTP/1.0" \/ ver = str "HTTP/1.1") ->
  (should_keep_alive false st ka (get_header hs (str "Connection")) (Some (skipn 5 ver)) = true
   <-> stays_open ka st hs ver).
Proof.
  intros ka st hs ver Hver. unfold should_keep_alive, stays_open.
  destruct (get_header hs (str "Connection")) as [h|] eqn:E.
  - apply get_header_first in E. rewrite orb_false_r. split.
    + intro H. assert (Hs : strcaseeq h (str "keep-alive") = true)
        by (destruct (strcaseeq h (str "keep-alive")); [reflexivity|]; rewrite !orb_true_r in H; discriminate).
      apply strcaseeq_spec in Hs. repeat split; [destruct ka; [reflexivity|lia]|lia|lia|]. left. eauto.
    + intros (-> & H1 & H2 & [(v & Hv & Hc)|(Hn & _)]).
      * apply get_header_first in E, Hv. assert (v = h) by congruence. subst v.
        apply strcaseeq_spec in Hc. rewrite Hc. lia.
      * apply get_header_none in Hn. apply get_header_first in E. congruence.
  - assert (Hn := E). apply get_header_none in Hn. rewrite orb_false_r. split.
    + intro H. assert (Hs : strncmp_eq 3 (skipn 5 ver) (str "1.1") = true)
        by (destruct (strncmp_eq 3 (skipn 5 ver) (str "1.1")); [reflexivity|]; rewrite !orb_true_r in H; discriminate).
      repeat split; [destruct ka; [reflexivity|lia]|lia|lia|]. right. split; [assumption|].
      destruct Hver as [->| ->]; [cbn in Hs; discriminate|reflexivity].
    + intros (-> & H1 & H2 & [(v & Hv & _)|(_ & ->)]).
      * apply get_header_first in Hv. congruence.
      * change (strncmp_eq 3 (skipn 5 (str "HTTP/1.1")) (str "1.1")) with true. lia.
Qed.

(** ** Content-Length *)
Lemma dec_acc_fold : forall v a, Forall (fun c => 48 <= c <= 57) v ->
  dec_acc a v = fold_left (fun a c => 10 * a + (c - 48)) v a.
Proof.
  induction v as [|c v IH]; intros a H; [reflexivity|]. inversion H; subst. cbn [dec_acc fold_left].
  replace (isdigit c) with true by (unfold isdigit; lia). rewrite IH by assumption. f_equal. lia.
Qed.

Lemma strtoll_decimal : forall v n, decimal v n -> n <= LLONG_MAX -> strtoll v = n.
Proof.
  intros v n (Hne & Hd & Hn) Hmax. unfold strtoll.
  assert (E : drop_while isspace v = v).
  { destruct v as [|c v]; [reflexivity|]. inversion Hd; subst. cbn.
    replace (isspace c) with false by (unfold isspace; lia). reflexivity. }
  rewrite E. assert (Ev : match v with 45 :: u => - dec_acc 0 u | 43 :: u => dec_acc 0 u | _ => dec_acc 0 v end = dec_acc 0 v).
  { destruct v as [|c v]; [reflexivity|]. inversion Hd; subst.
    destruct c as [|p|]; try reflexivity.
    do 7 (try (destruct p as [p|p|]; try reflexivity; try (exfalso; lia))). }
  rewrite Ev, dec_acc_fold, <- Hn by assumption.
  pose proof (dec_acc_nonneg v 0 ltac:(lia)) as P. rewrite dec_acc_fold, <- Hn in P by assumption.
  unfold LLONG_MAX, LLONG_MIN in *. 
  replace (9223372036854775807 <? n) with false by lia. replace (n <? -9223372036854775808) with false by lia.
  reflexivity.
Qed.

Lemma match_dec : forall v, Forall (fun c => 48 <= c <= 57) v ->
  match v with 45 :: u => - dec_acc 0 u | 43 :: u => dec_acc 0 u | _ => dec_acc 0 v end = dec_acc 0 v.
Proof.
  intros [|c v] Hd; [reflexivity|]. inversion Hd; subst.
  destruct c as [|p|]; try reflexivity.
  do 7 (try (destruct p as [p|p|]; try reflexivity; try (exfalso; lia))).
Qed.

Lemma drop_digits : forall v, Forall (fun c => 48 <= c <= 57) v -> drop_while isspace v = v.
Proof.
  intros [|c v] Hd; [reflexivity|]. inversion Hd; subst. cbn.
  replace (isspace c) with false by (unfold isspace; lia). reflexivity.
Qed.

Lemma strtoll_big : forall v n, decimal v n -> LLONG_MAX < n -> strtoll v = LLONG_MAX.
Proof.
  intros v n (Hne & Hd & Hn) Hmax. unfold strtoll. rewrite drop_digits, match_dec, dec_acc_fold, <- Hn by assumption.
  replace (LLONG_MAX <? n) with true by lia. reflexivity.
Qed.

Lemma strtoll_neg : forall v n, decimal v n -> 0 < n -> strtoll (45 :: v) < 0.
Proof.
  intros v n (Hne & Hd & Hn) H. unfold strtoll. change (drop_while isspace (45 :: v)) with (45 :: v). cbv iota.
  rewrite dec_acc_fold, <- Hn by assumption. unfold LLONG_MAX, LLONG_MIN.
  replace (9223372036854775807 <? - n) with false by lia.
  destruct (- n <? -9223372036854775808); lia.
Qed.

(** ** URI treatment *)
Lemma before_char_cut : forall c u, cut_at c u (before_char c u).
Proof.
  intros c u. unfold cut_at, before_char. split.
  - intro H. pose proof (take_while_all (fun x => negb (x =? c)) u) as F. rewrite Forall_forall in F.
    apply F in H. lia.
  - induction u as [|x u IH]; [now left|]. cbn. destruct (x =? c) eqn:E; cbn.
    + right. exists u. f_equal. lia.
    + destruct IH as [IH|[t IH]]; [left; congruence|right; exists t; congruence].
Qed.

Definition uri_meaning (u v : bytes) : Prop :=
  exists q d z, cut_at 63 u q /\ pct_decodes q d /\ cut_at 0 d z /\ normal_form z v.

Lemma before_char_len : forall c u, len (before_char c u) <= len u.
Proof.
  intros c u. unfold before_char. rewrite <- (take_drop_while (fun x => negb (x =? c)) u) at 2.
  rewrite len_app. pose proof (len_nonneg _ (drop_while (fun x => negb (x =? c)) u)). lia.
Qed.

Lemma uri_of_meaning : forall u, len u <= 272 -> uri_meaning u (uri_of u).
Proof.
  intros u Hu. pose proof (handle_uri_eq u) as E. unfold handle_uri in E. cbv zeta in E.
  pose proof (before_char_len 63 u). unfold EST_URI_MAX_LEN in E.
  replace (Z.min (len (before_char 63 u)) 272) with (len (before_char 63 u)) in E by lia.
  destruct (url_decode_exact (before_char 63 u)) as (d & Ed & Hd).
  rewrite Ed in E. cbn [bind] in E. inversion E as [E'].
  exists (before_char 63 u), d, (before_char 0 d). repeat split.
  - apply before_char_cut. - apply before_char_cut. - assumption.
  - apply before_char_cut. - apply before_char_cut.
  - unfold remove_double_dots_and_double_slashes. apply (rm_dots_nf (length (before_char 0 d))). lia.
Qed.

(** ** One allowed request on a connection *)
Section C.
Variable S0 : Type.
Variable handler : S0 -> est_req -> S0 * Z.
Notation serve' := (serve S0 handler get_request_len req_of_head uri_of).

Lemma token_str : forall m, m = str "GET" \/ m = str "POST" -> token m.
Proof. intros m [->| ->]; split; try discriminate; repeat constructor; unfold token_byte; cbn; lia. Qed.
Lemma token_ver : forall m, m = str "HTTP/1.0" \/ m = str "HTTP/1.1" -> token m.
Proof. intros m [->| ->]; split; try discriminate; repeat constructor; unfold token_byte; cbn; lia. Qed.

Theorem allowed_served : forall ka s w meth uri ver hs body rest,
  allowed_request meth uri ver hs body ->
  concat w = render_head meth uri ver hs ++ body ++ rest ->
  exists eb,
    (eb = None /\ body = [] \/ eb = Some (len body, body)) /\
    let r := {| er_method := meth; er_uri := uri_of uri; er_headers := hs; er_body := eb |} in
    let st := snd (handler s r) in
    let s' := fst (handler s r) in
    process_new_connection S0 handler ka s w =
    if should_keep_alive false st ka (get_header hs (str "Connection")) (Some (skipn 5 ver))
    then match process_new_connection S0 handler ka s' [rest] with
         | Ok (evs, s'') => Ok (EvServed r st :: evs, s'')
         | UB => UB
         end
    else Ok ([EvServed r st], s').
Proof.
  intros ka s w meth uri ver hs body rest (Hm & Hu & Hu0 & Hv & Hn & Hh & Hlen & Hb) Ew.
  assert (Hwl : wf_line meth uri ver) by (repeat split; try apply Hu; try apply (token_str meth Hm); apply (token_ver ver Hv)).
  set (H := render_head meth uri ver hs) in *.
  set (stream := H ++ body ++ rest).
  assert (HHpos : 0 < len H).
  { unfold H, render_head. rewrite !len_app. change (len CRLF) with 2.
    pose proof (len_nonneg _ meth); pose proof (len_nonneg _ uri); pose proof (len_nonneg _ ver); pose proof (len_nonneg _ (str " ")); pose proof (len_nonneg _ (concat (map render_header hs))). lia. }
  assert (En : get_request_len (firstn (Z.to_nat 16384) stream) = len H).
  { unfold stream. rewrite firstn_app.
    rewrite firstn_all2 by (unfold len in Hlen; lia). apply get_request_len_render; assumption. }
  assert (Eh : req_of_head (firstn (Z.to_nat (len H - 1)) stream) =
     Some {| hr_method := meth; hr_uri := uri; hr_version := skipn 5 ver; hr_headers := hs |}).
  { unfold stream. rewrite firstn_app_le by (unfold len; lia). unfold req_of_head, H.
    rewrite req_text_render by (auto; unfold len in Hn; lia).
    replace (is_valid_http_method meth) with true by (destruct Hm as [->| ->]; reflexivity).
    destruct Hv as [->| ->]; reflexivity. }
  assert (Eskip : skipn (Z.to_nat (len H)) stream = body ++ rest) by (unfold stream; apply skipn_len_app).
  assert (Hu1 : is_valid_uri uri = true).
  { destruct Hu0 as [Hu0| ->]; [|reflexivity]. destruct uri as [|c u]; [discriminate|]. cbn in Hu0. subst c. reflexivity. }
  assert (Hv1 : negb (strncmp_eq 3 (skipn 5 ver) (str "1.0")) && negb (strncmp_eq 3 (skipn 5 ver) (str "1.1")) = false)
    by (destruct Hv as [->| ->]; reflexivity).
  set (rq := {| hr_method := meth; hr_uri := uri; hr_version := skipn 5 ver; hr_headers := hs |}) in *.
  assert (Hcl : exists eb, (eb = None /\ body = [] \/ eb = Some (len body, body)) /\
    request_content_len rq = len body /\
    (match get_header (hr_headers rq) (str "Content-Length") with
     | Some _ => Some (len body, firstn (Z.to_nat (len body)) (skipn (Z.to_nat (len H)) stream))
     | None => None end) = eb).
  { rewrite Eskip. rewrite firstn_len_app. unfold request_content_len, rq. cbn [hr_headers hr_method].
    destruct Hb as [(-> & -> & Hno)|(v & Hf & Hd & Hl)].
    - apply get_header_none in Hno. rewrite Hno. exists None. repeat split; auto.
    - apply get_header_first in Hf. rewrite Hf. exists (Some (len body, body)). repeat split; auto.
      apply strtoll_decimal; [assumption|unfold LLONG_MAX; lia]. }
  destruct Hcl as (eb & Heb & Ecl & Ebody).
  assert (Hl8 : len body <= 8192).
  { destruct Hb as [(-> & _)|(v & _ & _ & Hl)]; [unfold len; cbn; lia|assumption]. }
  exists eb. split; [assumption|]. cbv zeta.
  rewrite !process_new_connection_spec. rewrite Ew. cbn [concat]. rewrite app_nil_r. fold stream.
  rewrite (serve_fuel S0 handler (S (length rest)) (length stream))
    by (unfold stream; rewrite ?app_length; unfold len in HHpos; lia).
  cbn [serve]. rewrite En. pose proof (len_nonneg _ body).
  replace (len H =? 0) with false by lia. replace (len H <? 0) with false by lia.
  rewrite Eh. cbn [hr_uri hr_version hr_method hr_headers].
  change (hr_uri rq) with uri. change (hr_version rq) with (skipn 5 ver).
  rewrite Hu1, Hv1. cbn [negb]. rewrite Ecl.
  replace (8192 <? len body) with false by lia. replace (len body <? 0) with false by lia.
  rewrite Ebody. change (hr_method rq) with meth. change (hr_headers rq) with hs.
  destruct (handler s _) as [s' st] eqn:Eha. cbn [fst snd].
  destruct (should_keep_alive false st ka _ _); [|reflexivity].
  assert (Esk : skipn (Z.to_nat (len H + len body)) stream = rest).
  { unfold stream. rewrite app_assoc, <- len_app. apply skipn_len_app. }
  rewrite Esk.
  destruct (serve _ _ _ _ _ _ _ _ rest) as [evs s'']. reflexivity.
Qed.

(** Every event of a connection, whatever was received. *)
Definition ev_ok (ev : http_event) : Prop :=
  match ev with
  | EvServed r st => er_body r = None \/
      exists n b, er_body r = Some (n, b) /\ 0 <= n <= 8192 /\ len b <= n
  | EvError st => 400 <= st
  end.
Definition ev_status (ev : http_event) : Z := match ev with EvServed _ st => st | EvError st => st end.

Lemma serve_ev_ok : forall f ka s str0, Forall ev_ok (fst (serve' f ka s str0)).
Proof.
  induction f as [|f IH]; intros ka s st0; cbn [serve]; [constructor|].
  set (n := get_request_len _).
  destruct (n =? 0); [destruct (16384 <=? len st0); repeat constructor; cbn; lia|].
  destruct (n <? 0); [constructor|].
  destruct (req_of_head _) as [rq|]; [|repeat constructor; cbn; lia].
  destruct (negb (is_valid_uri _)); [repeat constructor; cbn; lia|].
  destruct (negb (strncmp_eq 3 (hr_version rq) (str "1.0")) && _); [repeat constructor; cbn; lia|].
  cbv zeta. destruct (8192 <? request_content_len rq) eqn:E1; [repeat constructor; cbn; lia|].
  destruct (request_content_len rq <? 0) eqn:E2; [repeat constructor; cbn; lia|].
  destruct (handler _ _) as [s' st] eqn:Eh.
  assert (H : forall m u hd st, ev_ok (EvServed {| er_method := m; er_uri := u; er_headers := hd; er_body :=
     match get_header (hr_headers rq) (str "Content-Length") with
     | Some _ => Some (request_content_len rq, firstn (Z.to_nat (request_content_len rq)) (skipn (Z.to_nat n) st0))
     | None => None end |} st)).
  { intros. cbn. destruct (get_header _ _); [right|now left].
    eexists _, _. split; [reflexivity|]. split; [lia|]. rewrite len_firstn. lia. }
  destruct (should_keep_alive _ _ _ _ _).
  - specialize (IH ka s' (skipn (Z.to_nat (n + request_content_len rq)) st0)).
    destruct (serve _ _ _ _ _ f ka s' _) as [evs s'']. cbn [fst] in *. constructor; auto.
  - constructor; [apply H|constructor].
Qed.

Lemma serve_closes : forall f ka s str0 pre ev post,
  fst (serve' f ka s str0) = pre ++ ev :: post ->
  ka = false \/ ev_status ev = 202 \/ 400 <= ev_status ev -> post = [].
Proof.
  induction f as [|f IH]; intros ka s st0 pre ev post; cbn [serve].
  { intro H. destruct pre; discriminate. }
  assert (One : forall e, [e] = pre ++ ev :: post -> post = []).
  { intros e H. destruct pre as [|p [|q pre]]; inversion H; auto. }
  assert (Nil : [] = pre ++ ev :: post -> post = []).
  { intros H. destruct pre; discriminate. }
  set (n := get_request_len _).
  destruct (n =? 0); [destruct (16384 <=? len st0); cbn [fst]; eauto|].
  destruct (n <? 0); [cbn [fst]; eauto|].
  destruct (req_of_head _) as [rq|]; [|cbn [fst]; eauto].
  destruct (negb (is_valid_uri _)); [cbn [fst]; eauto|].
  destruct (negb (strncmp_eq 3 (hr_version rq) (str "1.0")) && _); [cbn [fst]; eauto|].
  cbv zeta. destruct (8192 <? request_content_len rq) eqn:E1; [cbn [fst]; eauto|].
  destruct (request_content_len rq <? 0) eqn:E2; [cbn [fst]; eauto|].
  destruct (handler _ _) as [s' st] eqn:Eh.
  destruct (should_keep_alive _ _ _ _ _) eqn:Ek; [|cbn [fst]; eauto].
  specialize (IH ka s' (skipn (Z.to_nat (n + request_content_len rq)) st0)).
  destruct (serve _ _ _ _ _ f ka s' _) as [evs s'']. cbn [fst] in *.
  intros H Hc. destruct pre as [|p pre]; inversion H; subst.
  - exfalso. cbn [ev_status] in Hc.
    assert (Hf : should_keep_alive false st ka (get_header (hr_headers rq) (str "Connection")) (Some (hr_version rq)) = false).
    { destruct Hc as [->|Hc]; [|apply should_keep_alive_error; tauto].
      unfold should_keep_alive. rewrite !orb_true_r. reflexivity. }
    congruence.
  - eapply IH; eauto.
Qed.

(** A rendered head whose Content-Length is unusable. *)
Theorem bad_length_rejected : forall ka s w meth uri ver hs rest code,
  (meth = str "GET" \/ meth = str "POST") -> token uri -> (hd 0 uri = 47 \/ uri = str "*") ->
  (ver = str "HTTP/1.0" \/ ver = str "HTTP/1.1") -> len hs <= 64 ->
  Forall (fun h => header_name (fst h) /\ header_value (snd h)) hs ->
  len (render_head meth uri ver hs) <= 16384 ->
  ((meth = str "POST" /\ no_header hs (str "Content-Length") /\ code = 400)
   \/ (exists v n, first_header hs (str "Content-Length") v /\ decimal v n /\ 8192 < n /\ code = 413)
   \/ (exists v n, first_header hs (str "Content-Length") (45 :: v) /\ decimal v n /\ 0 < n /\ code = 400)) ->
  concat w = render_head meth uri ver hs ++ rest ->
  process_new_connection S0 handler ka s w = Ok ([EvError code], s).
Proof.
  intros ka s w meth uri ver hs rest code Hm Hu Hu0 Hv Hn Hh Hlen Hb Ew.
  assert (Hwl : wf_line meth uri ver) by (repeat split; try apply Hu; try apply (token_str meth Hm); apply (token_ver ver Hv)).
  set (H := render_head meth uri ver hs) in *. set (stream := H ++ rest) in *.
  assert (HHpos : 0 < len H).
  { unfold H, render_head. rewrite !len_app. change (len CRLF) with 2.
    pose proof (len_nonneg _ meth); pose proof (len_nonneg _ uri); pose proof (len_nonneg _ ver); pose proof (len_nonneg _ (str " ")); pose proof (len_nonneg _ (concat (map render_header hs))). lia. }
  assert (En : get_request_len (firstn (Z.to_nat 16384) stream) = len H).
  { unfold stream. rewrite firstn_app.
    rewrite firstn_all2 by (unfold len in Hlen; lia). apply get_request_len_render; assumption. }
  assert (Eh : req_of_head (firstn (Z.to_nat (len H - 1)) stream) =
     Some {| hr_method := meth; hr_uri := uri; hr_version := skipn 5 ver; hr_headers := hs |}).
  { unfold stream. rewrite firstn_app_le by (unfold len; lia). unfold req_of_head, H.
    rewrite req_text_render by (auto; unfold len in Hn; lia).
    replace (is_valid_http_method meth) with true by (destruct Hm as [->| ->]; reflexivity).
    destruct Hv as [->| ->]; reflexivity. }
  assert (Hu1 : is_valid_uri uri = true).
  { destruct Hu0 as [Hu0| ->]; [|reflexivity]. destruct uri as [|c u]; [discriminate|]. cbn in Hu0. subst c. reflexivity. }
  assert (Hv1 : negb (strncmp_eq 3 (skipn 5 ver) (str "1.0")) && negb (strncmp_eq 3 (skipn 5 ver) (str "1.1")) = false)
    by (destruct Hv as [->| ->]; reflexivity).
  rewrite !process_new_connection_spec, Ew. fold stream.
  cbn [serve]. rewrite En.
  replace (len H =? 0) with false by lia. replace (len H <? 0) with false by lia.
  rewrite Eh. cbn [hr_uri hr_version hr_method hr_headers]. rewrite Hu1, Hv1. cbn [negb].
  unfold request_content_len. cbn [hr_headers hr_method].
  destruct Hb as [(-> & Hno & ->)|[(v & n & Hf & Hd & Hl & ->)|(v & n & Hf & Hd & Hl & ->)]].
  - apply get_header_none in Hno. rewrite Hno. reflexivity.
  - apply get_header_first in Hf. rewrite Hf.
    assert (P : 8192 < strtoll v).
    { destruct (Z_le_gt_dec n LLONG_MAX) as [L|G]; [rewrite (strtoll_decimal v n) by (assumption || lia); lia|].
      rewrite (strtoll_big v n) by (auto; lia). unfold LLONG_MAX. lia. }
    replace (8192 <? strtoll v) with true by lia. reflexivity.
  - apply get_header_first in Hf. rewrite Hf.
    pose proof (strtoll_neg v n Hd Hl) as P.
    replace (8192 <? strtoll (45 :: v)) with false by lia.
    replace (strtoll (45 :: v) <? 0) with true by lia. reflexivity.
Qed.

(** Body bytes come from the stream; a body is short only if the stream ended. *)
Definition ev_from (total : bytes) (ev : http_event) : Prop :=
  match ev with
  | EvServed r _ => forall n b, er_body r = Some (n, b) ->
      exists a c, total = a ++ b ++ c /\ (len b < n -> c = [])
  | EvError _ => True
  end.

Lemma serve_ev_from : forall f ka s pre st0, Forall (ev_from (pre ++ st0)) (fst (serve' f ka s st0)).
Proof.
  induction f as [|f IH]; intros ka s pre st0; cbn [serve]; [constructor|].
  set (n := get_request_len _).
  destruct (n =? 0); [destruct (16384 <=? len st0); repeat constructor|].
  destruct (n <? 0); [constructor|].
  destruct (req_of_head _) as [rq|]; [|repeat constructor].
  destruct (negb (is_valid_uri _)); [repeat constructor|].
  destruct (negb (strncmp_eq 3 (hr_version rq) (str "1.0")) && _); [repeat constructor|].
  cbv zeta. destruct (8192 <? request_content_len rq) eqn:E1; [repeat constructor|].
  destruct (request_content_len rq <? 0) eqn:E2; [repeat constructor|].
  destruct (handler _ _) as [s' st] eqn:Eh. set (cl := request_content_len rq) in *. clearbody cl n.
  assert (H : forall m u hd st, ev_from (pre ++ st0) (EvServed {| er_method := m; er_uri := u; er_headers := hd; er_body :=
     match get_header (hr_headers rq) (str "Content-Length") with
     | Some _ => Some (cl, firstn (Z.to_nat cl) (skipn (Z.to_nat n) st0))
     | None => None end |} st)).
  { intros. cbn. destruct (get_header _ _); [|discriminate]. intros k bb Eb. inversion Eb; subst k bb.
    exists (pre ++ firstn (Z.to_nat n) st0), (skipn (Z.to_nat cl) (skipn (Z.to_nat n) st0)). split.
    - rewrite <- app_assoc, !firstn_skipn. reflexivity.
    - intro L. rewrite len_firstn in L. apply skipn_all2. unfold len in L. lia. }
  destruct (should_keep_alive _ _ _ _ _).
  - specialize (IH ka s' (pre ++ firstn (Z.to_nat (n + cl)) st0) (skipn (Z.to_nat (n + cl)) st0)).
    rewrite <- app_assoc, firstn_skipn in IH.
    destruct (serve _ _ _ _ _ f ka s' _) as [evs s'']. cbn [fst] in *. constructor; auto.
  - constructor; [apply H|constructor].
Qed.
End C.

(** ** Wrappers used by the property files *)
Lemma parse_rendered : forall meth uri ver hs rest,
  (meth = str "GET" \/ meth = str "POST") -> token uri ->
  (ver = str "HTTP/1.0" \/ ver = str "HTTP/1.1") ->
  Forall (fun h => header_name (fst h) /\ header_value (snd h)) hs -> len hs <= 64 ->
  let buf := render_head meth uri ver hs ++ rest in
  parse_http_request buf (len buf)
  = Ok (Some (len (render_head meth uri ver hs),
              {| hr_method := meth; hr_uri := uri; hr_version := skipn 5 ver; hr_headers := hs |})).
Proof.
  intros meth uri ver hs rest Hm Hu Hv Hh Hn buf.
  assert (Hwl : wf_line meth uri ver) by (repeat split; try apply Hu; try apply (token_str meth Hm); apply (token_ver ver Hv)).
  set (H := render_head meth uri ver hs) in *.
  assert (HHpos : 0 < len H).
  { unfold H, render_head. rewrite !len_app. change (len CRLF) with 2.
    pose proof (len_nonneg _ meth); pose proof (len_nonneg _ uri); pose proof (len_nonneg _ ver); pose proof (len_nonneg _ (str " ")); pose proof (len_nonneg _ (concat (map render_header hs))). lia. }
  pose proof (len_nonneg _ buf).
  rewrite (parse_http_request_spec buf (len buf) (len H)); [|lia| |assumption].
  - unfold buf. rewrite firstn_app_le by (unfold len; lia). unfold req_of_head, H.
    rewrite req_text_render by (auto; unfold len in Hn; lia).
    replace (is_valid_http_method meth) with true by (destruct Hm as [->| ->]; reflexivity).
    destruct Hv as [->| ->]; reflexivity.
  - rewrite firstn_all2 by (unfold len; lia). apply get_request_len_render; assumption.
Qed.

Lemma rm_dots_nf' : forall u, normal_form u (remove_double_dots_and_double_slashes u).
Proof. intro u. apply (rm_dots_nf (length u)). lia. Qed.

Lemma rm_dots_exact : forall u, normal_form u (remove_double_dots_and_double_slashes u)
  /\ forall v, normal_form u v -> v = remove_double_dots_and_double_slashes u.
Proof. intro u. split; [apply rm_dots_nf'|]. intros v H. eapply normal_form_fun; [exact H|apply rm_dots_nf']. Qed.

Lemma rm_dots_clean : forall u,
  clean (remove_double_dots_and_double_slashes u)
  /\ len (remove_double_dots_and_double_slashes u) <= len u
  /\ remove_double_dots_and_double_slashes (remove_double_dots_and_double_slashes u)
     = remove_double_dots_and_double_slashes u
  /\ (clean u -> remove_double_dots_and_double_slashes u = u).
Proof.
  intro u.
  assert (C : forall x, clean x -> remove_double_dots_and_double_slashes x = x).
  { intros x Hx. eapply normal_form_fun; [apply rm_dots_nf'|now apply clean_normal]. }
  repeat split.
  - eapply normal_form_clean, rm_dots_nf'.
  - apply normal_form_len, rm_dots_nf'.
  - apply C. eapply normal_form_clean, rm_dots_nf'.
  - apply C.
Qed.

Lemma handle_uri_meaning : forall u, len u <= 272 -> exists v,
  handle_uri u = Ok v /\
  exists q d z, cut_at 63 u q /\ pct_decodes q d /\ cut_at 0 d z /\ normal_form z v.
Proof. intros u H. exists (uri_of u). split; [apply handle_uri_eq|]. now apply uri_of_meaning. Qed.

Lemma handle_uri_any : forall u, exists v, handle_uri u = Ok v /\ clean v /\ len v <= 272 /\ len v <= len u.
Proof.
  intro u. unfold handle_uri. cbv zeta. pose proof (before_char_len 63 u). pose proof (len_nonneg _ (before_char 63 u)).
  set (n := Z.min (len (before_char 63 u)) EST_URI_MAX_LEN).
  assert (n <= 272 /\ n <= len u /\ 0 <= n) by (unfold n, EST_URI_MAX_LEN; lia).
  destruct (url_decode_bounded (before_char 63 u) n (n + 1) false) as (r & k & E & L1 & L2 & _);
    [unfold n; lia|lia|].
  rewrite E. cbn [bind]. eexists. split; [reflexivity|].
  destruct (rm_dots_clean (before_char 0 r)) as (C & L & _).
  pose proof (before_char_len 0 r). repeat split; [exact C|lia|lia].
Qed.

Lemma url_decode_iff : forall s, exists r,
  url_decode s (len s) (len s + 1) false = Ok (r, len r)
  /\ forall t, pct_decodes s t <-> t = r.
Proof.
  intro s. destruct (url_decode_exact s) as (r & E & D). exists r. split; [exact E|].
  intro t. split; [|intros ->; exact D]. intro D'. eapply pct_decodes_fun; eauto.
Qed.

Lemma url_decode_roundtrip : forall s, all_bytes s ->
  url_decode (pct_encode s) (len (pct_encode s)) (len (pct_encode s) + 1) false = Ok (s, len s).
Proof.
  intros s H. destruct (url_decode_iff (pct_encode s)) as (r & E & U).
  apply pct_encode_decodes, U in H. now subst.
Qed.

Lemma url_decode_bounds : forall s sl dl f, 0 <= sl <= len s -> 1 <= dl ->
  exists r n, url_decode s sl dl f = Ok (r, n) /\ len r + 1 <= dl /\ len r <= sl /\ (n = -1 \/ n = len r).
Proof.
  intros s sl dl f H1 H2. destruct (url_decode_bounded s sl dl f H1 H2) as (r & n & E & L1 & L2 & H).
  exists r, n. repeat split; auto. lia.
Qed.

Lemma served_body_limit : forall S0 (handler : S0 -> est_req -> S0 * Z) ka s w evs s' r st,
  process_new_connection S0 handler ka s w = Ok (evs, s') -> In (EvServed r st) evs ->
  er_body r = None \/ exists n b, er_body r = Some (n, b) /\ 0 <= n <= 8192 /\ len b <= n.
Proof.
  intros S0 handler ka s w evs s' r st E Hin. rewrite process_new_connection_spec in E.
  pose proof (serve_ev_ok S0 handler (S (length (concat w))) ka s (concat w)) as F.
  destruct (serve _ _ _ _ _ _ ka s _) as [evs' s'']. inversion E; subst. cbn [fst] in F.
  rewrite Forall_forall in F. exact (F _ Hin).
Qed.

Lemma served_body_from : forall S0 (handler : S0 -> est_req -> S0 * Z) ka s w evs s' r st n b,
  process_new_connection S0 handler ka s w = Ok (evs, s') -> In (EvServed r st) evs ->
  er_body r = Some (n, b) ->
  exists a c, concat w = a ++ b ++ c /\ (len b < n -> c = []).
Proof.
  intros S0 handler ka s w evs s' r st n b E Hin. rewrite process_new_connection_spec in E.
  pose proof (serve_ev_from S0 handler (S (length (concat w))) ka s [] (concat w)) as F.
  destruct (serve _ _ _ _ _ _ ka s _) as [evs' s'']. inversion E; subst. cbn [fst] in F.
  rewrite Forall_forall in F. exact (F _ Hin n b).
Qed.

Lemma events_close : forall S0 (handler : S0 -> est_req -> S0 * Z) ka s w evs s' pre ev post,
  process_new_connection S0 handler ka s w = Ok (evs, s') -> evs = pre ++ ev :: post ->
  ka = false \/ ev_status ev = 202 \/ 400 <= ev_status ev -> post = [].
Proof.
  intros S0 handler ka s w evs s' pre ev post E He. rewrite process_new_connection_spec in E.
  apply (serve_closes S0 handler (S (length (concat w))) ka s (concat w) pre).
  destruct (serve _ _ _ _ _ _ ka s _) as [evs' s'']. inversion E; subst. reflexivity.
Qed.

Lemma allowed_served_spec : forall S0 (handler : S0 -> est_req -> S0 * Z) ka s w meth uri ver hs body rest,
  allowed_request meth uri ver hs body -> len uri <= 272 ->
  concat w = render_head meth uri ver hs ++ body ++ rest ->
  exists r,
    er_method r = meth /\ er_headers r = hs
    /\ (exists q d z, cut_at 63 uri q /\ pct_decodes q d /\ cut_at 0 d z /\ normal_form z (er_uri r))
    /\ (er_body r = None /\ body = [] \/ er_body r = Some (len body, body))
    /\ let st := snd (handler s r) in
       let s' := fst (handler s r) in
       (stays_open ka st hs ver ->
        exists evs s'', process_new_connection S0 handler ka s' [rest] = Ok (evs, s'')
          /\ process_new_connection S0 handler ka s w = Ok (EvServed r st :: evs, s''))
       /\ (~ stays_open ka st hs ver ->
           process_new_connection S0 handler ka s w = Ok ([EvServed r st], s')).
Proof.
  intros S0 handler ka s w meth uri ver hs body rest Ha Hu Ew.
  destruct (allowed_served S0 handler ka s w meth uri ver hs body rest Ha Ew) as (eb & Heb & E).
  exists {| er_method := meth; er_uri := uri_of uri; er_headers := hs; er_body := eb |}.
  cbn [er_method er_uri er_headers er_body]. 
  split; [reflexivity|]. split; [reflexivity|]. split; [now apply uri_of_meaning|]. split; [exact Heb|].
  cbv zeta in *. split.
  - intro Hk. destruct Ha as (_ & _ & _ & Hv & _).
    apply (should_keep_alive_spec ka _ hs ver Hv) in Hk. rewrite Hk in E.
    destruct (process_new_connection S0 handler ka _ [rest]) as [[evs s'']|] eqn:Ep.
    + exists evs, s''. split; [reflexivity|exact E].
    + rewrite process_new_connection_spec in Ep. discriminate.
  - intro Hk. destruct Ha as (_ & _ & _ & Hv & _).
    destruct (should_keep_alive false _ ka _ _) eqn:Ek; [|exact E].
    exfalso. apply Hk. now apply (should_keep_alive_spec ka _ hs ver Hv).
Qed.

Lemma short_body_served : exists w r st evs,
  process_new_connection unit (fun s _ => (s, 200)) true tt w = Ok (EvServed r st :: evs, tt)
  /\ exists n b, er_body r = Some (n, b) /\ len b < n.
Proof.
  exists [render_head (str "POST") (str "/x") (str "HTTP/1.1") [(str "Content-Length", str "9")] ++ str "ab"].
  exists {| er_method := str "POST"; er_uri := str "/x"; er_headers := [(str "Content-Length", str "9")];
            er_body := Some (9, str "ab") |}, 200, [].
  split; [vm_compute; reflexivity|]. exists 9, (str "ab"). split; [reflexivity|]. unfold len. cbn. lia.
Qed.
