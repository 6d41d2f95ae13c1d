(** What the client makes of well-formed responses. *)
From Coq Require Import String ZArith List Bool Lia ZifyBool ZifyNat.
From Verif Require Import Base Spec.Http Spec.UriPath Spec.Server Spec.Client Model.CLib Model.EstErr Model.HttpServer Model.Uri Model.AuthHdr Model.ClientHttp
  Proofs.EstErr Proofs.HttpParse Proofs.HttpRender Proofs.Uri Proofs.ClientHeaders Proofs.ClientHttp.
Import ListNotations.
Open Scope Z_scope.

(** ** Finding the end of the head *)
Definition pat : bytes := [13; 10; 13; 10].
Definition shift (k : Z) (o : option Z) : option Z := match o with Some i => Some (i + k) | None => None end.
Lemma find_line : forall l s, one_line l -> find_sub pat (l ++ s) = shift (len l) (find_sub pat s).
Proof.
  induction l as [|c l IH]; intros s F.
  - cbn [app]. change (len (@nil Z)) with 0. destruct (find_sub pat s); cbn [shift]; [f_equal; lia|reflexivity].
  - inversion F as [|? ? [C1 C2] F']; subst. cbn [app]. unfold pat at 1. cbn [find_sub prefixb]. replace (13 =? c) with false by lia. cbn [andb].
    fold pat. rewrite IH by assumption. rewrite len_cons. destruct (find_sub pat s); cbn [shift]; [f_equal; lia|reflexivity].
Qed.
Lemma find_crlf : forall c s, c <> 13 -> find_sub pat (13 :: 10 :: c :: s) = shift 2 (find_sub pat (c :: s)).
Proof.
  intros c s C. assert (E : find_sub pat (13 :: 10 :: c :: s) =
    if prefixb pat (13 :: 10 :: c :: s) then Some 0 else match find_sub pat (10 :: c :: s) with Some i => Some (i + 1) | None => None end) by reflexivity.
  rewrite E. replace (prefixb pat (13 :: 10 :: c :: s)) with false by (unfold pat; cbn [prefixb]; lia).
  assert (E2 : find_sub pat (10 :: c :: s) =
    if prefixb pat (10 :: c :: s) then Some 0 else match find_sub pat (c :: s) with Some i => Some (i + 1) | None => None end) by reflexivity.
  rewrite E2. replace (prefixb pat (10 :: c :: s)) with false by reflexivity. destruct (find_sub pat (c :: s)); cbn [shift]; [f_equal; lia|reflexivity].
Qed.
Definition line (h : bytes * bytes) : bytes := fst h ++ str ": " ++ snd h.
Lemma plain_line : forall h, plain_header h -> one_line (line h).
Proof.
  intros h (_ & N & V & _). unfold line. apply Forall_app. split; [|apply Forall_app; split].
  - eapply Forall_impl; [|exact N]. cbn. intros c H. split; intros ->; apply H; auto.
  - repeat constructor; discriminate.
  - eapply Forall_impl; [|exact V]. cbn. intros c H. split; intros ->; apply H; auto.
Qed.
Lemma render_line : forall h, render_header h = line h ++ CRLF.
Proof. intro h. unfold render_header, line. now rewrite <- !app_assoc. Qed.
Lemma plain_start : forall h s, plain_header h -> exists c t, render_header h ++ s = c :: t /\ c <> 13 /\ c <> 10.
Proof.
  intros [n v] s (Ne & N & _). cbn [fst snd] in *. destruct n as [|c n]; [contradiction|]. inversion N; subst. unfold render_header. cbn [fst snd app].
  eexists c, _. split; [reflexivity|]. split; intros ->; apply H1; cbn; auto.
Qed.
Lemma find_head : forall hs l0 tb, one_line l0 -> Forall plain_header hs ->
  find_sub pat (l0 ++ CRLF ++ concat (map render_header hs) ++ CRLF ++ tb) = Some (len l0 + len (concat (map render_header hs))).
Proof.
  induction hs as [|h hs IH]; intros l0 tb L0 F.
  - rewrite find_line by assumption. cbn. f_equal. change (len (@nil Z)) with 0. lia.
  - inversion F as [|? ? Ph Fh]; subst. rewrite find_line by assumption. cbn [map concat].
    rewrite <- app_assoc. destruct (plain_start h (concat (map render_header hs) ++ CRLF ++ tb) Ph) as (c & t & E & C & _). rewrite E.
    change (CRLF ++ c :: t) with (13 :: 10 :: c :: t). rewrite find_crlf by assumption. rewrite <- E.
    rewrite render_line, <- !app_assoc. rewrite IH by (auto using plain_line). cbn [shift]. f_equal. rewrite !len_app. change (len CRLF) with 2. lia.
Qed.

(** ** Splitting into headers *)
Lemma not_in2 : forall (P : Z -> Prop) d s, Forall P s -> (forall c, P c -> ~ In c d) -> Forall (fun c => memb c d = false) s.
Proof. intros P d s F H. eapply Forall_impl; [|exact F]. intros c Pc. apply memb_false. now apply H. Qed.
Lemma chdrs_render : forall hs n n0 tb, hs <> [] -> Forall plain_header hs -> (length hs <= n)%nat -> no_leading_newline tb ->
  chdrs n (concat (map render_header hs) ++ CRLF ++ tb) n0 (Some (n0 - len tb - 4)) = (hs, tb).
Proof.
  induction hs as [|h hs IH]; intros n n0 tb Ne F L B; [contradiction|]. clear Ne. destruct n as [|n]; [cbn in L; lia|]. cbn [length] in L.
  inversion F as [|? ? Ph Fh]; subst. destruct h as [nm v]. destruct Ph as (N0 & Nn & Nv & V0). cbn [fst snd] in *.
  assert (Etb : match tb with [] => True | c :: _ => memb c [13; 10] = false end).
  { destruct tb as [|c tb]; [exact I|]. destruct B as [B1 B2]. cbn in B1, B2. cbn. lia. }
  set (rest := match hs with [] => tb | _ => concat (map render_header hs) ++ CRLF ++ tb end).
  assert (G : exists g, Forall (fun c => memb c [13; 10] = true) g /\ 10 :: concat (map render_header hs) ++ CRLF ++ tb = g ++ rest).
  { unfold rest. destruct hs; [exists [10; 13; 10]|exists [10]]; (split; [repeat constructor|reflexivity]). }
  destruct G as (g & Hg & Eg).
  assert (Rs : match rest with [] => True | c :: _ => memb c [13; 10] = false end).
  { unfold rest. destruct hs as [|h2 hs]; [exact Etb|]. inversion Fh; subst. cbn [map concat]. rewrite <- app_assoc.
    destruct (plain_start h2 (concat (map render_header hs) ++ CRLF ++ tb) H1) as (c & t & -> & C1 & C2). cbn. lia. }
  cbn [chdrs map concat].
  replace ((render_header (nm, v) ++ concat (map render_header hs)) ++ CRLF ++ tb) with (nm ++ 58 :: [32] ++ (v ++ 13 :: g ++ rest)).
  2: { rewrite <- Eg. unfold render_header at 2. cbn [fst snd]. change (str ": ") with [58; 32]. unfold CRLF. rewrite <- !app_assoc. reflexivity. }
  rewrite cut_exact; [|eapply not_in2; [exact Nn|cbn; intuition]|reflexivity|repeat constructor|].
  2: { destruct v as [|c v]; [reflexivity|]. cbn in V0. cbn. lia. }
  rewrite cut_exact; [|eapply not_in2; [exact Nv|cbn; intuition]|reflexivity|exact Hg|exact Rs].
  destruct nm as [|c nm]; [contradiction|]. unfold rest. destruct hs as [|h2 hs].
  - cbn [past]. replace (n0 - len tb - 4 <? n0 - len tb) with true by lia. reflexivity.
  - cbn [past]. replace (n0 - len tb - 4 <? n0 - len (concat (map render_header (h2 :: hs)) ++ CRLF ++ tb)) with false.
    2: { rewrite !len_app. change (len CRLF) with 2. cbn [map concat]. rewrite len_app. unfold render_header at 1. rewrite !len_app. change (len CRLF) with 2.
         change (len (str ": ")) with 2. pose proof (len_nonneg _ (fst h2)). pose proof (len_nonneg _ (snd h2)). pose proof (len_nonneg _ (concat (map render_header hs))). lia. }
    rewrite IH; [reflexivity|discriminate|assumption|lia|assumption].
Qed.
Lemma resp_render : forall l0 hs tb, one_line l0 -> plain_headers hs -> no_leading_newline tb ->
  resp_text (l0 ++ CRLF ++ concat (map render_header hs) ++ CRLF ++ tb) = (hs, tb).
Proof.
  intros l0 hs tb L0 [Ln F] B. unfold resp_text. fold pat. rewrite find_head by assumption.
  set (w := l0 ++ CRLF ++ concat (map render_header hs) ++ CRLF ++ tb).
  assert (Lw : len l0 + len (concat (map render_header hs)) = len w - len tb - 4) by (unfold w; rewrite !len_app; change (len CRLF) with 2; lia).
  rewrite Lw. destruct hs as [|h hs]; [cbn in Ln; lia|].
  assert (E : snd (cut [13; 10] [13; 10] w) = concat (map render_header (h :: hs)) ++ CRLF ++ tb).
  { unfold w. change (CRLF ++ concat (map render_header (h :: hs)) ++ CRLF ++ tb) with (13 :: [10] ++ (concat (map render_header (h :: hs)) ++ CRLF ++ tb)).
    rewrite cut_exact; [reflexivity| |reflexivity|repeat constructor|].
    - eapply Forall_impl; [|exact L0]. cbn. intros c C. lia.
    - inversion F; subst. cbn [map concat]. rewrite <- app_assoc.
      destruct (plain_start h (concat (map render_header hs) ++ CRLF ++ tb) H1) as (c & t & -> & C1 & C2). cbn. lia. }
  rewrite E. apply chdrs_render; [discriminate|assumption|unfold len in Ln; lia|assumption].
Qed.
Lemma text_newline : forall b, no_leading_newline b -> no_leading_newline (text b).
Proof. intros [|c b] [H1 H2]; unfold text, no_leading_newline in *; cbn [take_while] in *; [cbn; lia|]. destruct (negb (c =? 0)); cbn in *; lia. Qed.

(** The client sees the headers and the body that were sent. *)
Theorem the_response : forall d code hs body, response d code hs body -> clean_head d body -> plain_headers hs -> no_leading_newline body ->
  the_text d = hs /\ the_body d = body.
Proof.
  intros d code hs body (num & reason & Dn & L3 & Lr & _ & E) (head & Eh & Nh) P B.
  assert (E' : d = ((str "HTTP/1.1 " ++ num ++ str " " ++ reason) ++ CRLF ++ concat (map render_header hs) ++ CRLF) ++ body) by (rewrite E, <- !app_assoc; reflexivity).
  assert (head = (str "HTTP/1.1 " ++ num ++ str " " ++ reason) ++ CRLF ++ concat (map render_header hs) ++ CRLF).
  { rewrite Eh in E'. now apply app_inv_tail in E'. }
  assert (Et : text d = (str "HTTP/1.1 " ++ num ++ str " " ++ reason) ++ CRLF ++ concat (map render_header hs) ++ CRLF ++ text body).
  { rewrite Eh, text_app by exact Nh. subst head. rewrite <- !app_assoc. reflexivity. }
  assert (R : resp_text (text d) = (hs, text body)).
  { rewrite Et. apply resp_render; auto using text_newline. apply Forall_app; split; [repeat constructor; discriminate|].
    apply Forall_app; split; [|apply Forall_app; split; [repeat constructor; discriminate|exact Lr]]. destruct Dn as (_ & Dn & _). eapply Forall_impl; [|exact Dn]. cbn. lia. }
  unfold the_text, the_body. rewrite R. cbn [fst snd]. split; [reflexivity|].
  replace (len (text d) - len (text body)) with (len head); [rewrite Eh at 1; apply skipn_len_app|].
  subst head. rewrite Et, !len_app. lia.
Qed.
Lemma status_of : forall d code hs body, response d code hs body -> In code status_codes -> first_status status_codes d = code.
Proof.
  intros d code hs body (num & reason & (_ & Dn & V) & L3 & _ & _ & E) I.
  destruct num as [|a [|b [|c [|]]]]; try (unfold len in L3; cbn in L3; lia). clear L3. inversion Dn as [|? ? A Dn1]; subst. inversion Dn1 as [|? ? B Dn2]; subst.
  inversion Dn2 as [|? ? C _]; subst. clear Dn Dn1 Dn2. cbn [fold_left] in *.
  set (s := str " " ++ reason ++ CRLF ++ concat (map render_header hs) ++ CRLF ++ body).
  change (str "HTTP/1.1 " ++ [a; b; c] ++ s) with (72 :: 84 :: 84 :: 80 :: 47 :: 49 :: 46 :: 49 :: 32 :: a :: b :: c :: s).
  clearbody s. unfold status_codes in I. cbn [In] in I.
  Ltac dig a b c I := match type of I with ?n = _ =>
    let x := eval vm_compute in (n / 100 + 48) in let y := eval vm_compute in ((n / 10) mod 10 + 48) in let w := eval vm_compute in (n mod 10 + 48) in
    assert (a = x) by lia; assert (b = y) by lia; assert (c = w) by lia; subst a b c; reflexivity end.
  repeat (destruct I as [I|I]; [dig a b c I|]). contradiction.
Qed.

(** ** Content headers *)
Definition good_types (ct : bytes) (hs : list (bytes * bytes)) : Prop :=
  Forall (fun h => fst h = str "Content-Type" -> exists t, snd h = ct ++ t) hs.
Fixpoint lastcl (cl : option Z) (hs : list (bytes * bytes)) : option Z :=
  match hs with [] => cl | (n, v) :: r => lastcl (if beq n (str "Content-Length") then Some (atoi v) else cl) r end.
Definition has_ct (hs : list (bytes * bytes)) : bool := existsb (fun h => beq (fst h) (str "Content-Type")) hs.
Lemma check_good : forall ct hs ctp cl, good_types ct hs -> check_text hs ct ctp cl = Some (ctp || has_ct hs, lastcl cl hs).
Proof.
  induction hs as [|[n v] hs IH]; intros ctp cl G; cbn [check_text lastcl has_ct existsb]; [now rewrite orb_false_r|].
  inversion G as [|? ? G1 G2]; subst. cbn [fst snd] in *. destruct (beq n (str "Content-Type")) eqn:E1.
  - apply beq_eq in E1. destruct (G1 E1) as (t & ->). replace (prefixb ct (ct ++ t)) with true by (symmetry; apply prefixb_spec; eauto).
    rewrite IH by assumption. subst n. cbn [orb]. rewrite orb_true_r. reflexivity.
  - cbn [orb]. destruct (beq n (str "Content-Length")); now rewrite IH.
Qed.
Lemma check_bad : forall ct hs ctp cl, ~ good_types ct hs -> check_text hs ct ctp cl = None.
Proof.
  induction hs as [|[n v] hs IH]; intros ctp cl G; [exfalso; apply G; constructor|]. cbn [check_text].
  destruct (beq n (str "Content-Type")) eqn:E1.
  - destruct (prefixb ct v) eqn:P; [|reflexivity]. apply IH. intro H. apply G. constructor; [|assumption]. intros _. cbn. now apply prefixb_spec.
  - assert (G' : ~ good_types ct hs).
    { intro H. apply G. constructor; [|assumption]. cbn. intros ->. rewrite (proj2 (beq_eq _ _) eq_refl) in E1. discriminate. }
    destruct (beq n (str "Content-Length")); now apply IH.
Qed.
Lemma lastcl_none : forall hs cl, Forall (fun h => fst h <> str "Content-Length") hs -> lastcl cl hs = cl.
Proof.
  induction hs as [|[n v] hs IH]; intros cl F; [reflexivity|]. inversion F; subst. cbn [lastcl fst] in *.
  destruct (beq n (str "Content-Length")) eqn:E; [apply beq_eq in E; contradiction|]. auto.
Qed.
Lemma lastcl_last : forall hs cl v, last_header hs (str "Content-Length") v -> lastcl cl hs = Some (atoi v).
Proof.
  intros hs cl v (h1 & h2 & -> & F). revert cl. induction h1 as [|[n x] h1 IH]; intro cl; cbn [app lastcl]; [|apply IH].
  rewrite (proj2 (beq_eq _ _) eq_refl). now apply lastcl_none.
Qed.
Lemma has_ct_iff : forall hs, has_ct hs = true <-> Exists (fun h => fst h = str "Content-Type") hs.
Proof.
  intro hs. unfold has_ct. rewrite existsb_exists, Exists_exists. split; intros (x & I & H); exists x; (split; [assumption|]); now apply beq_eq.
Qed.
Lemma reply_type_eq : forall op, reply_type op = op_content_type op.
Proof. intros []; reflexivity. Qed.

Lemma to_int_small : forall n, 0 <= n <= 2147483647 -> to_int n = n.
Proof. intros n H. unfold to_int. rewrite Z.mod_small by lia. lia. Qed.
Lemma atoi_small : forall v n, decimal v n -> 0 <= n <= 2147483647 -> atoi v = n.
Proof. intros v n D H. unfold atoi. rewrite (strtoll_decimal v n D) by (unfold LLONG_MAX; lia). now apply to_int_small. Qed.
Lemma decimal_nonneg : forall v n, decimal v n -> 0 <= n.
Proof.
  intros v n (_ & F & ->). assert (G : forall a, 0 <= a -> 0 <= fold_left (fun a c => 10 * a + (c - 48)) v a).
  { induction v as [|c v IH]; intros a A; [exact A|]. inversion F; subst. cbn [fold_left]. apply IH; [assumption|]. lia. }
  apply G. lia.
Qed.
Lemma atoi_wrap : forall v n, decimal v n -> n <= LLONG_MAX -> forall b, 0 <= b <= 2000000 -> (atoi v = b <-> n mod 4294967296 = b).
Proof.
  intros v n D L b B. pose proof (decimal_nonneg _ _ D). unfold atoi. rewrite (strtoll_decimal v n D L). unfold to_int.
  rewrite <- Z.add_mod_idemp_l by lia. pose proof (Z.mod_pos_bound n 4294967296 ltac:(lia)) as M. set (r := n mod 4294967296) in *.
  destruct (Z_lt_dec r 2147483648) as [H1|H1].
  - rewrite Z.mod_small by lia. lia.
  - replace ((r + 2147483648) mod 4294967296) with (r - 2147483648). 2: { apply Z.mod_unique with 1; lia. } lia.
Qed.
Lemma atoi_huge : forall v n, decimal v n -> LLONG_MAX < n -> atoi v = -1.
Proof. intros v n D L. unfold atoi. rewrite (strtoll_big v n D L). reflexivity. Qed.

Section D.
Variables (evs : list net) (d : bytes) (hs : list (bytes * bytes)) (body : bytes) (op : operation) (c : cctx).
Hypothesis (A : arrives evs d) (R : response d 200 hs body) (H0 : clean_head d body) (Hp : plain_headers hs) (Hb : no_leading_newline body)
  (Hl : len d <= 1999955) (Ho : has_body op).
Definition took (v : delivery) (rv : est_error) : Prop := est_io_get_response evs op c = Ok (rv, v, set_status 200 c).
Lemma d_pos : 0 < len d.
Proof. destruct R as (num & reason & _ & _ & _ & _ & ->). rewrite len_app. change (len (str "HTTP/1.1 ")) with 9. pose proof (len_nonneg _ (num ++ str " " ++ reason ++ CRLF ++ concat (map render_header hs) ++ CRLF ++ body)). lia. Qed.
Lemma body_len : len body <= 1999955.
Proof.
  destruct H0 as (head & E & _). rewrite E, len_app in Hl. pose proof (len_nonneg _ head). lia.
Qed.
Lemma took_result : forall rv v, (rv, v) = body_result hs body op -> took v rv.
Proof.
  intros rv v E. destruct (response_run evs d op c) as (rv' & d' & c' & H & S200 & _).
  - apply read_arrives; [assumption|]. unfold EST_CA_MAX. lia.
  - exact d_pos.
  - unfold EST_CA_MAX. lia.
  - destruct (S200 (status_of _ _ _ _ R ltac:(cbn; auto))) as [-> Q]. destruct (the_response _ _ _ _ R H0 Hp Hb) as [T B]. rewrite T, B in Q.
    replace (status_only op) with false in Q by (destruct Ho as [O1 O2]; destruct op; try reflexivity; congruence). unfold took. rewrite H. congruence.
Qed.
Lemma delivered : forall v, typed op hs -> last_header hs (str "Content-Length") v -> decimal v (len body) ->
  took (Deliver (match body with [] => None | _ => Some body end) (len body)) EST_ERR_NONE.
Proof.
  intros v [G T] L D. apply took_result. unfold body_result. rewrite <- reply_type_eq, check_good by exact G. apply has_ct_iff in T. rewrite T. cbn [orb].
  rewrite (lastcl_last _ _ _ L). pose proof body_len. pose proof (len_nonneg _ body). rewrite (atoi_small v _ D) by lia. rewrite Z.eqb_refl.
  destruct body as [|x b]; [reflexivity|]. rewrite len_cons in *. pose proof (len_nonneg _ b). replace (len b + 1 =? 0) with false by lia. reflexivity.
Qed.
Lemma refused : ~ typed op hs \/ Forall (fun h => fst h <> str "Content-Length") hs
  \/ (exists v n, last_header hs (str "Content-Length") v /\ decimal v n /\ n <> len body /\ (n < 4294967296 \/ 9223372036854775807 < n)) ->
  took (Deliver None 0) EST_ERR_HTTP_UNSUPPORTED.
Proof.
  intro N. apply took_result. unfold body_result.
  assert (Dec : good_types (op_content_type op) hs \/ ~ good_types (op_content_type op) hs).
  { destruct (check_text hs (op_content_type op) false None) eqn:E; [left|right].
    - clear N R H0 Hp. revert E. generalize false as b. generalize (@None Z) as o. revert p. induction hs as [|[n v] l IH]; intros p o b E; [constructor|]. cbn [check_text] in E.
      constructor; cbn [fst snd].
      + intros ->. rewrite (proj2 (beq_eq _ _) eq_refl) in E. destruct (prefixb _ v) eqn:P; [|discriminate]. now apply prefixb_spec.
      + destruct (beq n (str "Content-Type")); [destruct (prefixb _ v); [|discriminate]; eapply IH; eauto|]. destruct (beq n (str "Content-Length")); eapply IH; eauto.
    - intro G. rewrite check_good in E by exact G. discriminate. }
  destruct Dec as [G|G]; [|now rewrite check_bad]. rewrite check_good by exact G. cbn [orb].
  destruct (has_ct hs) eqn:T; [|destruct (lastcl None hs); reflexivity]. destruct N as [N|[N|(v & n & L & D & Nn & S)]].
  - exfalso. apply N. split; [unfold good_types in G; rewrite <- reply_type_eq in G; exact G|now apply has_ct_iff].
  - rewrite lastcl_none by assumption. reflexivity.
  - rewrite (lastcl_last _ _ _ L). replace (atoi v =? len body) with false; [reflexivity|]. symmetry. apply Z.eqb_neq. intro Q.
    pose proof body_len. pose proof (len_nonneg _ body). destruct S as [S|S].
    + pose proof (decimal_nonneg _ _ D). rewrite (atoi_wrap v n D) in Q by (unfold LLONG_MAX; lia). rewrite Z.mod_small in Q by lia. lia.
    + rewrite (atoi_huge v n D) in Q by exact S. lia.
Qed.
Lemma delivered_wrap : forall v n, typed op hs -> last_header hs (str "Content-Length") v -> decimal v n -> n <= 9223372036854775807 ->
  n mod 4294967296 = len body -> body <> [] -> took (Deliver (Some body) (len body)) EST_ERR_NONE.
Proof.
  intros v n [G T] L D Ln M Nb. apply took_result. unfold body_result. rewrite <- reply_type_eq, check_good by exact G. apply has_ct_iff in T. rewrite T. cbn [orb].
  rewrite (lastcl_last _ _ _ L). pose proof body_len. pose proof (len_nonneg _ body). rewrite (proj2 (atoi_wrap v n D Ln (len body) ltac:(lia)) M). rewrite Z.eqb_refl.
  destruct body as [|x b]; [contradiction|]. rewrite len_cons in *. pose proof (len_nonneg _ b). replace (len b + 1 =? 0) with false by lia. reflexivity.
Qed.
End D.

(** ** Retry *)
Lemma casecmp_case_eq : forall a b, casecmp_upper a b = true <-> case_eq a b.
Proof. exact casecmp_upper_spec. Qed.
Definition usable (h : bytes * bytes) : bool :=
  casecmp_upper (fst h) (str "Retry-After") && negb (isalpha (hd 0 (snd h))) && strisdigit_s (snd h) && (strtoll (snd h) <=? INT_MAX).
Lemma usable_iff : forall h, usable h = true <-> exists n, retry_header h n.
Proof.
  intros [n v]. unfold usable, retry_header. cbn [fst snd]. rewrite !andb_true_iff, casecmp_case_eq. split.
  - intros [[[C _] D] L]. assert (Dv : Forall (fun c => 48 <= c <= 57) v).
    { destruct v; [discriminate|]. cbn [strisdigit_s] in D. rewrite forallb_forall in D. apply Forall_forall. intros x I. specialize (D _ I). unfold isdigit in D. lia. }
    set (k := fold_left (fun a c => 10 * a + (c - 48)) v 0). assert (Dd : decimal v k) by (split; [destruct v; discriminate|split; [assumption|reflexivity]]).
    exists k. split; [assumption|]. split; [assumption|]. destruct (Z_le_dec k LLONG_MAX) as [K|K].
    + rewrite (strtoll_decimal v k Dd K) in L. unfold INT_MAX in L. lia.
    + rewrite (strtoll_big v k Dd) in L by lia. unfold LLONG_MAX, INT_MAX in *. lia.
  - intros (k & C & D & L). repeat split; auto.
    + destruct D as (Nv & F & _). destruct v as [|x v]; [contradiction|]. inversion F; subst. cbn [hd]. unfold isalpha, isupper, islower. lia.
    + destruct D as (Nv & F & _). destruct v as [|x v]; [contradiction|]. cbn [strisdigit_s]. apply forallb_forall. intros y I. rewrite Forall_forall in F.
      specialize (F _ I). cbn in F. unfold isdigit. lia.
    + rewrite (strtoll_decimal v k D) by (unfold LLONG_MAX; lia). unfold INT_MAX. lia.
Qed.
Lemma usable_val : forall h n, retry_header h n -> strtoll (snd h) = n.
Proof. intros h n (_ & D & L). apply strtoll_decimal; [assumption|]. unfold LLONG_MAX. lia. Qed.
Lemma retry_step : forall h ts rv c, retry_text (h :: ts) rv c = if usable h then retry_text ts EST_ERR_CA_ENROLL_RETRY (set_delay (strtoll (snd h)) c) else retry_text ts rv c.
Proof. intros [n v] ts rv c. reflexivity. Qed.
Lemma retry_none : forall ts rv c, Forall (fun h => forall n, ~ retry_header h n) ts -> retry_text ts rv c = (rv, c).
Proof.
  induction ts as [|h ts IH]; intros rv c F; [reflexivity|]. inversion F; subst. rewrite retry_step. destruct (usable h) eqn:U; [|auto].
  apply usable_iff in U as (n & U). destruct (H1 n U).
Qed.
Lemma retry_last : forall h1 h h2 n rv c, retry_header h n -> Forall (fun h => forall n, ~ retry_header h n) h2 ->
  retry_text (h1 ++ h :: h2) rv c = (EST_ERR_CA_ENROLL_RETRY, set_delay n c).
Proof.
  induction h1 as [|x h1 IH]; intros h h2 n rv c R F; cbn [app]; rewrite retry_step.
  - replace (usable h) with true by (symmetry; apply usable_iff; eauto). rewrite (usable_val h n R). now apply retry_none.
  - destruct (usable x); [|now apply IH]. rewrite (IH _ _ n) by assumption. reflexivity.
Qed.
Lemma retry_cases : forall ts, Forall (fun h => forall n, ~ retry_header h n) ts
  \/ exists h1 h h2 n, ts = h1 ++ h :: h2 /\ retry_header h n /\ Forall (fun h => forall n, ~ retry_header h n) h2.
Proof.
  induction ts as [|h ts IH]; [left; constructor|]. destruct IH as [IH|(h1 & x & h2 & n & -> & R & F)].
  - destruct (usable h) eqn:U.
    + right. apply usable_iff in U as (n & U). exists [], h, ts, n. auto.
    + left. constructor; [|assumption]. intros n Q. assert (usable h = true) by (apply usable_iff; eauto). congruence.
  - right. exists (h :: h1), x, h2, n. auto.
Qed.
