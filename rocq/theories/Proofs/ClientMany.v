(** What the client makes of responses with more than sixteen headers. *)
From Coq Require Import String ZArith List Bool Lia ZifyBool ZifyNat.
From Verif Require Import Base Spec.Http Spec.UriPath Spec.Server Spec.Client Model.CLib Model.EstErr Model.HttpServer Model.Uri Model.AuthHdr Model.ClientHttp
  Proofs.EstErr Proofs.HttpParse Proofs.HttpRender Proofs.Uri Proofs.ClientHeaders Proofs.ClientHttp Proofs.ClientRender.
Import ListNotations.
Open Scope Z_scope.

Lemma chdrs_first : forall h1 h2 n0 tb, h2 <> [] -> Forall plain_header (h1 ++ h2) ->
  chdrs (length h1) (concat (map render_header (h1 ++ h2)) ++ CRLF ++ tb) n0 (Some (n0 - len tb - 4)) = (h1, concat (map render_header h2) ++ CRLF ++ tb).
Proof.
  induction h1 as [|h h1 IH]; intros h2 n0 tb Ne F; [reflexivity|]. cbn [app] in F. inversion F as [|? ? Ph Fh]; subst. destruct h as [nm v].
  destruct Ph as (N0 & Nn & Nv & V0). cbn [fst snd] in *.
  destruct (h1 ++ h2) as [|g hs] eqn:Eh. { apply app_eq_nil in Eh as [_ ->]. contradiction. }
  set (rest := concat (map render_header (g :: hs)) ++ CRLF ++ tb).
  assert (Rs : match rest with [] => True | c :: _ => memb c [13; 10] = false end).
  { unfold rest. inversion Fh; subst. cbn [map concat]. rewrite <- app_assoc.
    destruct (plain_start g (concat (map render_header hs) ++ CRLF ++ tb) H1) as (c & t & -> & C1 & C2). cbn. lia. }
  cbn [app length chdrs]. rewrite Eh.
  replace (concat (map render_header ((nm, v) :: g :: hs)) ++ CRLF ++ tb) with (nm ++ 58 :: [32] ++ (v ++ 13 :: [10] ++ rest)).
  2: { change (map render_header ((nm, v) :: g :: hs)) with (render_header (nm, v) :: map render_header (g :: hs)). cbn [concat]. rewrite <- app_assoc. fold rest.
       unfold render_header. cbn [fst snd]. change (str ": ") with [58; 32]. unfold CRLF. rewrite <- !app_assoc. reflexivity. }
  rewrite cut_exact; [|eapply not_in2; [exact Nn|cbn; intuition]|reflexivity|repeat constructor|].
  2: { destruct v as [|c v]; [reflexivity|]. cbn in V0. cbn. lia. }
  rewrite cut_exact; [|eapply not_in2; [exact Nv|cbn; intuition]|reflexivity|repeat constructor|exact Rs].
  destruct nm as [|c nm]; [contradiction|]. cbn [past]. replace (n0 - len tb - 4 <? n0 - len rest) with false.
  2: { unfold rest. rewrite !len_app. change (len CRLF) with 2. cbn [map concat]. rewrite len_app. unfold render_header at 1. rewrite !len_app. change (len CRLF) with 2.
       change (len (str ": ")) with 2. pose proof (len_nonneg _ (fst g)). pose proof (len_nonneg _ (snd g)). pose proof (len_nonneg _ (concat (map render_header hs))). lia. }
  unfold rest. rewrite <- Eh. rewrite IH; [reflexivity|assumption|now rewrite Eh].
Qed.
Lemma resp_first : forall l0 h1 h2 tb, one_line l0 -> length h1 = 16%nat -> h2 <> [] -> Forall plain_header (h1 ++ h2) ->
  resp_text (l0 ++ CRLF ++ concat (map render_header (h1 ++ h2)) ++ CRLF ++ tb) = (h1, concat (map render_header h2) ++ CRLF ++ tb).
Proof.
  intros l0 h1 h2 tb L0 Ln Ne F. unfold resp_text. fold pat. rewrite find_head by assumption.
  set (w := l0 ++ CRLF ++ concat (map render_header (h1 ++ h2)) ++ CRLF ++ tb).
  assert (Lw : len l0 + len (concat (map render_header (h1 ++ h2))) = len w - len tb - 4) by (unfold w; rewrite !len_app; change (len CRLF) with 2; lia).
  rewrite Lw. assert (E : snd (cut [13; 10] [13; 10] w) = concat (map render_header (h1 ++ h2)) ++ CRLF ++ tb).
  { unfold w. change (CRLF ++ concat (map render_header (h1 ++ h2)) ++ CRLF ++ tb) with (13 :: [10] ++ (concat (map render_header (h1 ++ h2)) ++ CRLF ++ tb)).
    rewrite cut_exact; [reflexivity| |reflexivity|repeat constructor|].
    - eapply Forall_impl; [|exact L0]. cbn. intros c C. lia.
    - destruct h1 as [|h h1]; [discriminate|]. cbn [app] in *. inversion F; subst. cbn [map concat]. rewrite <- app_assoc.
      destruct (plain_start h (concat (map render_header (h1 ++ h2)) ++ CRLF ++ tb) H1) as (c & t & -> & C1 & C2). cbn. lia. }
  rewrite E, <- Ln. now apply chdrs_first.
Qed.
Lemma the_first : forall d code h1 h2 body, response d code (h1 ++ h2) body -> clean_head d body -> length h1 = 16%nat -> h2 <> [] ->
  Forall plain_header (h1 ++ h2) -> the_text d = h1 /\ the_body d = concat (map render_header h2) ++ CRLF ++ body.
Proof.
  intros d code h1 h2 body (num & reason & Dn & L3 & Lr & _ & E) (head & Eh & Nh) Ln Ne P.
  set (l0 := str "HTTP/1.1 " ++ num ++ str " " ++ reason). set (r2 := concat (map render_header h2) ++ CRLF).
  assert (Ec : concat (map render_header (h1 ++ h2)) ++ CRLF = concat (map render_header h1) ++ r2) by (unfold r2; now rewrite map_app, concat_app, <- app_assoc).
  assert (E' : d = (l0 ++ CRLF ++ concat (map render_header (h1 ++ h2)) ++ CRLF) ++ body) by (rewrite E; unfold l0; rewrite <- !app_assoc; reflexivity).
  assert (Hh : head = l0 ++ CRLF ++ concat (map render_header (h1 ++ h2)) ++ CRLF) by (rewrite Eh in E'; now apply app_inv_tail in E').
  assert (Et : text d = l0 ++ CRLF ++ concat (map render_header (h1 ++ h2)) ++ CRLF ++ text body) by (rewrite Eh, text_app by exact Nh; rewrite Hh, <- !app_assoc; reflexivity).
  assert (R : resp_text (text d) = (h1, r2 ++ text body)).
  { rewrite Et. rewrite resp_first; auto. 1: unfold r2; now rewrite <- app_assoc. unfold l0. apply Forall_app; split; [repeat constructor; discriminate|].
    apply Forall_app; split; [|apply Forall_app; split; [repeat constructor; discriminate|exact Lr]]. destruct Dn as (_ & Dn & _). eapply Forall_impl; [|exact Dn]. cbn. lia. }
  unfold the_text, the_body. rewrite R. cbn [fst snd]. split; [reflexivity|].
  replace (len (text d) - len (r2 ++ text body)) with (len (l0 ++ CRLF ++ concat (map render_header h1))).
  2: { rewrite Et. replace (concat (map render_header (h1 ++ h2)) ++ CRLF ++ text body) with (concat (map render_header h1) ++ r2 ++ text body) by (rewrite !(app_assoc _ _ (text body)); now rewrite Ec).
       rewrite !len_app. lia. }
  replace d with ((l0 ++ CRLF ++ concat (map render_header h1)) ++ (r2 ++ body)); [unfold r2; rewrite skipn_len_app; now rewrite <- app_assoc|].
  rewrite E', Ec, <- !app_assoc. reflexivity.
Qed.

Lemma lastcl_cases : forall hs cl, lastcl cl hs = cl \/ exists v, In (str "Content-Length", v) hs /\ lastcl cl hs = Some (atoi v).
Proof.
  induction hs as [|[n v] hs IH]; intro cl; [now left|]. cbn [lastcl]. destruct (beq n (str "Content-Length")) eqn:E.
  - apply beq_eq in E. subst n. right. destruct (IH (Some (atoi v))) as [->|(x & I & ->)]; [exists v|exists x]; cbn; auto.
  - destruct (IH cl) as [->|(x & I & ->)]; [now left|]. right. exists x. cbn; auto.
Qed.
Lemma check_cases : forall hs ct, check_text hs ct false None = None \/ check_text hs ct false None = Some (has_ct hs, lastcl None hs).
Proof.
  intros hs ct. destruct (check_text hs ct false None) eqn:E; [right|now left].
  assert (G : good_types ct hs).
  { revert E. generalize false as b. generalize (@None Z) as o. revert p. induction hs as [|[n v] l IH]; intros p o b E; [constructor|]. cbn [check_text] in E.
    constructor; cbn [fst snd].
    - intros ->. rewrite (proj2 (beq_eq _ _) eq_refl) in E. destruct (prefixb _ v) eqn:P; [|discriminate]. now apply prefixb_spec.
    - destruct (beq n (str "Content-Type")); [destruct (prefixb _ v); [|discriminate]; eapply IH; eauto|]. destruct (beq n (str "Content-Length")); eapply IH; eauto. }
  rewrite check_good in E by exact G. now rewrite <- E.
Qed.

Section D.
Variables (evs : list net) (d : bytes) (h1 h2 : list (bytes * bytes)) (body : bytes) (op : operation) (c : cctx).
Hypothesis (A : arrives evs d) (R : response d 200 (h1 ++ h2) body) (H0 : clean_head d body) (Ln : length h1 = 16%nat) (Ne : h2 <> []) (Hp : Forall plain_header (h1 ++ h2))
  (Hl : len d <= 1999955) (Ho : has_body op).
Let b2 := concat (map render_header h2) ++ CRLF ++ body.
Lemma first_result : forall rv v, (rv, v) = body_result h1 b2 op -> est_io_get_response evs op c = Ok (rv, v, set_status 200 c).
Proof.
  intros rv v E. destruct (response_run evs d op c) as (rv' & d' & c' & H & S200 & _).
  - apply read_arrives; [assumption|]. unfold EST_CA_MAX. lia.
  - destruct R as (num & reason & _ & _ & _ & _ & ->). rewrite len_app. change (len (str "HTTP/1.1 ")) with 9.
    pose proof (len_nonneg _ (num ++ str " " ++ reason ++ CRLF ++ concat (map render_header (h1 ++ h2)) ++ CRLF ++ body)). lia.
  - unfold EST_CA_MAX. lia.
  - destruct (S200 (status_of _ _ _ _ R ltac:(cbn; auto))) as [-> Q]. destruct (the_first _ _ _ _ _ R H0 Ln Ne Hp) as [T B]. rewrite T, B in Q.
    replace (status_only op) with false in Q by (destruct Ho as [O1 O2]; destruct op; try reflexivity; congruence). rewrite H. unfold b2 in E. congruence.
Qed.
Lemma b2_len : len body < len b2 <= 1999955.
Proof.
  unfold b2. destruct R as (num & reason & _ & _ & _ & _ & E). rewrite map_app, concat_app, <- !app_assoc in E.
  replace (len d) with (len (str "HTTP/1.1 ") + (len num + (len (str " ") + (len reason + (len CRLF + (len (concat (map render_header h1)) + len (concat (map render_header h2) ++ CRLF ++ body))))))) in Hl by (rewrite E, !len_app; lia).
  rewrite !len_app in *. change (len CRLF) with 2 in *. pose proof (len_nonneg _ num). pose proof (len_nonneg _ reason).
  pose proof (len_nonneg _ (concat (map render_header h1))). pose proof (len_nonneg _ (concat (map render_header h2))). change (len (str "HTTP/1.1 ")) with 9 in *. change (len (str " ")) with 1 in *. lia.
Qed.
Lemma many_refused : Forall (fun h => fst h = str "Content-Length" -> decimal (snd h) (len body)) (h1 ++ h2) ->
  est_io_get_response evs op c = Ok (EST_ERR_HTTP_UNSUPPORTED, Deliver None 0, set_status 200 c).
Proof.
  intro F. apply first_result. unfold body_result. destruct (check_cases h1 (op_content_type op)) as [->| ->]; [reflexivity|].
  destruct (has_ct h1); [|destruct (lastcl None h1); reflexivity]. destruct (lastcl_cases h1 None) as [->|(v & I & ->)]; [reflexivity|].
  rewrite Forall_forall in F. specialize (F _ (in_or_app _ _ _ (or_introl I)) eq_refl). cbn [snd] in F. pose proof b2_len. pose proof (len_nonneg _ body).
  rewrite (atoi_small v _ F) by lia. replace (len body =? len b2) with false by lia. reflexivity.
Qed.
Lemma many_taken : forall v, typed op h1 -> last_header h1 (str "Content-Length") v -> decimal v (len b2) ->
  est_io_get_response evs op c = Ok (EST_ERR_NONE, Deliver (Some b2) (len b2), set_status 200 c).
Proof.
  intros v [G T] L D. apply first_result. unfold body_result. rewrite <- reply_type_eq, check_good by exact G. apply has_ct_iff in T. rewrite T. cbn [orb].
  rewrite (lastcl_last _ _ _ L). pose proof b2_len. pose proof (len_nonneg _ body). rewrite (atoi_small v _ D) by lia. rewrite Z.eqb_refl.
  replace (len b2 =? 0) with false by lia. reflexivity.
Qed.
End D.
