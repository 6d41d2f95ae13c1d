(** Key generation responses as a whole. *)
From Coq Require Import String ZArith List Bool Lia ZifyBool ZifyNat.
From Verif Require Import Base Spec.Http Spec.Server Spec.Client Spec.Multipart Model.CLib Model.EstErr Model.HttpServer Model.ClientHttp Model.Multipart
  Proofs.EstErr Proofs.HttpParse Proofs.HttpRender Proofs.ClientHeaders Proofs.ClientHttp Proofs.ClientRender Proofs.MultipartRun Proofs.MultipartHeaders.
Import ListNotations.
Open Scope Z_scope.

(** ** The header stage *)
Definition kb_text (w : bytes) : option (option bytes) := kb 16 (snd (cut [13; 10] [13; 10] w)) (len w) (find_sub [13; 10; 13; 10] w) None.
Lemma text_no_nul : forall m, no_nul (text m).
Proof. intros m I. unfold text in I. pose proof (take_while_all (fun c => negb (c =? 0)) m) as F. rewrite Forall_forall in F. specialize (F _ I). cbn in F. discriminate. Qed.

Lemma keygen_split : forall w post, no_nul w -> let cur := len w - len (snd (resp_text w)) in
  match kb_text w with
  | None => parse_and_split_keygen_rsp (w ++ 0 :: post) = Ok None
  | Some B => exists s' pre' hs ts b, parse_and_split_keygen_rsp (w ++ 0 :: post) = Ok (Some (s' ++ 0 :: post, cur, hs, b))
    /\ len s' = len w /\ s' = pre' ++ snd (resp_text w) /\ len pre' = cur /\ no_nul (snd (resp_text w))
    /\ Forall2 (shows (s' ++ 0 :: post) (len w)) hs ts /\ points (s' ++ 0 :: post) b B /\ closed pre' (snd (resp_text w))
    /\ Forall2 alike ts (fst (resp_text w))
  end.
Proof.
  intros w post Nw cur. unfold kb_text, parse_and_split_keygen_rsp.
  pose proof (cstr_at_app [] w post Nw) as Hc. change (len (@nil Z)) with 0 in Hc. cbn [app] in Hc. rewrite Hc. cbn [bind].
  destruct (skip_step [] w post [CR; LF] [CR; LF] Nw) as (pre1 & E1 & L1 & z1 & P1 & Z1). cbn [app] in E1. change (len (@nil Z)) with 0 in *.
  unfold skip. rewrite E1. cbn [bind]. clear E1. pose proof (cut_hd [CR; LF] [CR; LF] w) as Hh.
  destruct (cut_no_nul [CR; LF] [CR; LF] w Nw) as [_ Hr1]. unfold cur, resp_text. change [13; 10; 13; 10] with [CR; LF; CR; LF]. change [13; 10] with [CR; LF].
  set (r1 := snd (cut [CR; LF] [CR; LF] w)) in *.
  assert (Hd : hd 0 r1 <> 10) by (destruct r1 as [|c r]; cbn [hd]; [lia|]; cbn in Hh; unfold CR, LF in Hh; lia).
  assert (Cl : closed pre1 r1) by (subst pre1; cbn [app]; now apply closed_zeros).
  pose proof (keygen_headers_spec 16 (find_sub [CR; LF; CR; LF] w) (len w) pre1 r1 post None None Hr1 Hd ltac:(lia) Cl ltac:(intros; exact I)) as K.
  unfold MAX_HEADERS. destruct (kb 16 r1 (len w) (find_sub [CR; LF; CR; LF] w) None) as [B|]; [|exact K].
  destruct K as (s' & pre' & hs & ts & b & E & L & M & N & U & T & P & Cl' & Al). rewrite E.
  exists (pre1 ++ s'), pre', hs, ts, b. rewrite <- !app_assoc. split; [do 3 f_equal; f_equal; f_equal; lia|]. split; [rewrite len_app; lia|].
  split; [|split; [lia|split; [exact U|split; [assumption|split; [assumption|split; assumption]]]]].
  rewrite !app_assoc in M. apply app_inv_tail in M. exact M.
Qed.

(** A status other than 200 is dealt with safely. *)
Lemma status_ok : forall m1 n0 hs ts st c, Forall2 (shows m1 n0) hs ts -> (forall v, 0 <= v <= n0 -> tidy 3 (skipn (Z.to_nat v) m1)) ->
  st <> 200 -> exists rv c', status_result m1 hs st c = Ok (rv, c') /\ err_eqb rv EST_ERR_NONE = false.
Proof.
  intros m1 n0 hs ts st c F Td N200. unfold status_result. replace (st =? 200) with false by lia.
  destruct (st =? 204); [eauto|]. destruct (st =? 404); [eauto|]. destruct (st =? 202).
  { unfold est_io_parse_http_retry_after_resp. rewrite (retry_loop_text _ _ _ _ _ _ F).
    pose proof (retry_text_errors ts EST_ERR_INVALID_RETRY_VALUE (set_delay 0 c)) as I. destruct (retry_text _ _ _) as [rv c1]. cbn [fst] in I.
    exists rv, c1. split; [reflexivity|]. destruct I as [<-|[<-|[]]]; reflexivity. }
  destruct (st =? 400); [eauto|]. destruct (st =? 401).
  { destruct (auth_request_good m1 _ hs _ c F Td) as (c1 & Q & _). rewrite Q. cbn [bind]. destruct (k_mode c); eexists _, _; (split; [reflexivity|reflexivity]). }
  destruct (st =? 423); [eauto|]. destruct (st =? 500); [eauto|]. destruct (st =? 502); [eauto|]. destruct (st =? 504); [eauto|]. destruct (st =? -1); eauto.
Qed.

(** ** What a whole response leads to *)
Definition kg_body (raw : bytes) : bytes := snd (resp_text (text raw)).
Theorem keygen_run : forall junk evs raw c, est_io_read_raw evs [] = (EST_ERR_NONE, raw) -> 0 < len raw -> len raw + 45 <= EST_CA_MAX ->
  let st := first_status status_codes raw in
  match kb_text (text raw) with
  | None => est_io_get_keygen_response junk evs c = Ok (EST_ERR_MULTIPART_PARSE, None, set_status st c)
  | Some B =>
    (st <> 200 -> exists rv c', est_io_get_keygen_response junk evs c = Ok (rv, None, c') /\ rv <> EST_ERR_NONE)
    /\ (st = 200 -> B = None -> est_io_get_keygen_response junk evs c = Ok (EST_ERR_NONE, None, set_status 200 c))
    /\ (st = 200 -> forall b, B = Some b -> 1 <= len b <= 70 /\ exists pre post,
          len pre = len (text raw) - len (kg_body raw) /\ closed pre (kg_body raw)
          /\ kg_body raw ++ 0 :: post = skipn (Z.to_nat (len pre)) raw ++ repeat 0 (Z.to_nat (EST_CA_MAX - len raw))
          /\ est_io_get_keygen_response junk evs c =
             match find_sub b (kg_body raw) with
             | None => UB
             | Some f =>
               ' (rv, key, cert) <- parse_remaining_multipart_payload junk (pre ++ kg_body raw ++ 0 :: post) (len pre + f - 2) b ;;
               Ok (if negb (err_eqb rv EST_ERR_NONE) then (rv, None, set_status 200 c)
                   else if (len key <? 256) || (len cert <? 128) then (EST_ERR_ZERO_LENGTH_BUF, None, set_status 200 c)
                   else (EST_ERR_NONE, Some (key, cert), set_status 200 c))
             end)
  end.
Proof.
  intros junk evs raw c R P L st. unfold est_io_get_keygen_response. rewrite R. change (negb (err_eqb EST_ERR_NONE EST_ERR_NONE)) with false. cbv iota.
  replace (len raw <=? 0) with false by lia. unfold est_io_parse_response_status_code. rewrite first_status_zeros. fold st.
  replace (Z.to_nat (EST_CA_MAX - len raw)) with (S (Z.to_nat (EST_CA_MAX - len raw - 1))) by lia.
  destruct (text_split (Z.to_nat (EST_CA_MAX - len raw - 1)) raw) as (post & a & E & N & Ep). rewrite E.
  pose proof (keygen_split (text raw) post N) as K. cbv zeta in K. fold (kg_body raw) in K.
  destruct (kb_text (text raw)) as [B|]; [|rewrite K; reflexivity].
  destruct K as (s' & pre' & hs & ts & b & -> & Ls & Es & Lp & Nb & F & Pt & Cl & _). cbn [bind].
  assert (Td : forall v, 0 <= v <= len (text raw) -> tidy 3 (skipn (Z.to_nat v) (s' ++ 0 :: post))).
  { intros v Hv. left. rewrite Ep. rewrite skipn_app. replace (Z.to_nat v - length s')%nat with 0%nat by (unfold len in *; lia). cbn [skipn].
    exists (skipn (Z.to_nat v) s' ++ a ++ repeat 0 (Z.to_nat (EST_CA_MAX - len raw) - 5)).
    unfold zeros. rewrite <- !app_assoc. do 2 f_equal. rewrite <- repeat_app. f_equal. lia. }
  assert (Lm : len (s' ++ 0 :: post) = EST_CA_MAX).
  { rewrite len_app, Ls. rewrite <- len_app, <- E. rewrite len_app, len_repeat. lia. }
  clearbody st. split; [|split].
  - intro Hst. destruct (status_ok _ _ _ _ st (set_status st c) F Td Hst) as (rv & c' & -> & Er). cbn [bind]. rewrite Er. exists rv, c'. split; [reflexivity|].
    intros ->. discriminate.
  - intros -> ->. cbn [status_result Z.eqb Pos.eqb bind]. change (status_result (s' ++ 0 :: post) hs 200 (set_status 200 c)) with (@Ok (est_error * cctx) (EST_ERR_NONE, set_status 200 c)).
    cbn [bind]. destruct b as [b|]; [destruct Pt|]. reflexivity.
  - intros -> b' ->. destruct b as [b|]; [|destruct Pt]. destruct Pt as [Hb Lb]. split; [exact Lb|]. exists pre', post. split; [exact Lp|].
    assert (Em : s' ++ 0 :: post = pre' ++ kg_body raw ++ 0 :: post) by (rewrite Es, <- app_assoc; reflexivity).
    split; [exact Cl|]. split.
    { destruct (resp_lines (text raw)) as (x & Ex & _). fold (kg_body raw) in Ex. rewrite (app_assoc) in E || idtac.
      assert (Lx : len x = len pre'). { pose proof (f_equal (@len Z) Ex) as Q. rewrite len_app in Q. lia. }
      rewrite <- Lx. assert (E2 : raw ++ repeat 0 (Z.to_nat (EST_CA_MAX - len raw)) = x ++ kg_body raw ++ 0 :: post).
      { rewrite app_assoc, <- Ex. replace (Z.to_nat (EST_CA_MAX - len raw)) with (S (Z.to_nat (EST_CA_MAX - len raw - 1))) by lia. exact E. }
      pose proof (f_equal (skipn (Z.to_nat (len x))) E2) as E3. rewrite skipn_len_app in E3. rewrite <- E3. rewrite skipn_app.
      replace (Z.to_nat (len x) - length raw)%nat with 0%nat; [cbn [skipn]; do 2 f_equal; lia|]. pose proof (text_len raw). pose proof (len_nonneg _ (kg_body raw)). unfold len in *. lia. }
    change (status_result (s' ++ 0 :: post) hs 200 (set_status 200 c)) with (@Ok (est_error * cctx) (EST_ERR_NONE, set_status 200 c)). cbn [bind].
    change (err_eqb EST_ERR_NONE EST_ERR_NONE) with true. cbv iota. cbn [keygen_payload]. rewrite (has_text_cstr _ _ _ Hb). cbn [bind].
    rewrite <- Lp, Em. rewrite cstr_at_app by exact Nb. cbn [bind].
    destruct (find_sub b' (kg_body raw)) as [f|]; [|reflexivity].
    destruct (parse_remaining_multipart_payload _ _ _ _) as [[[rv key] cert]|]; [|reflexivity]. cbn [bind].
    change EST_MIN_CLIENT_PKEY_LEN with 256. change EST_MIN_CLIENT_CERT_LEN with 128.
    destruct (negb (err_eqb rv EST_ERR_NONE)); [reflexivity|]. destruct (_ || _); reflexivity.
Qed.

(** ** Well-formed heads *)
Fixpoint kbs (hs : list (bytes * bytes)) (acc : option bytes) : option (option bytes) :=
  match hs with
  | [] => Some acc
  | h :: r => match bval (snd h) with None => None | Some o => kbs r (match o with Some B => Some B | None => acc end) end
  end.
Lemma kb_render : forall hs n n0 tb acc, hs <> [] -> Forall plain_header hs -> (length hs <= n)%nat -> no_leading_newline tb ->
  kb n (concat (map render_header hs) ++ CRLF ++ tb) n0 (Some (n0 - len tb - 4)) acc = kbs hs acc.
Proof.
  induction hs as [|h hs IH]; intros n n0 tb acc Ne F L B; [contradiction|]. clear Ne. destruct n as [|n]; [cbn in L; lia|]. cbn [length] in L.
  inversion F as [|? ? Ph Fh]; subst. destruct h as [nm v]. destruct Ph as (N0 & Nn & Nv & V0). cbn [fst snd] in *.
  assert (Etb : match tb with [] => True | c :: _ => memb c [13; 10] = false end).
  { destruct tb as [|c tb]; [exact I|]. destruct B as [B1 B2]. cbn in B1, B2. cbn. lia. }
  set (rest := match hs with [] => tb | _ => concat (map render_header hs) ++ CRLF ++ tb end).
  assert (G : exists g, Forall (fun c => memb c [13; 10] = true) g /\ 10 :: concat (map render_header hs) ++ CRLF ++ tb = g ++ rest).
  { unfold rest. destruct hs; [exists [10; 13; 10]|exists [10]]; (split; [repeat constructor|reflexivity]). }
  destruct G as (g & Hg & Eg).
  assert (Rs : match rest with [] => True | c :: _ => memb c [13; 10] = false end).
  { unfold rest. destruct hs as [|h2 hs]; [exact Etb|]. inversion Fh; subst. cbn [map concat]. rewrite <- app_assoc.
    destruct (plain_start h2 (concat (map render_header hs) ++ CRLF ++ tb) H1) as (c & t & -> & C1 & C2). cbn. lia. }
  cbn [kb map concat].
  replace ((render_header (nm, v) ++ concat (map render_header hs)) ++ CRLF ++ tb) with (nm ++ 58 :: [32] ++ (v ++ 13 :: g ++ rest)).
  2: { rewrite <- Eg. unfold render_header at 2. cbn [fst snd]. change (str ": ") with [58; 32]. unfold CRLF. rewrite <- !app_assoc. reflexivity. }
  rewrite cut_exact; [|eapply not_in2; [exact Nn|cbn; intuition]|reflexivity|repeat constructor|].
  2: { destruct v as [|c v]; [reflexivity|]. cbn in V0. cbn. lia. }
  rewrite cut_exact; [|eapply not_in2; [exact Nv|cbn; intuition]|reflexivity|exact Hg|exact Rs].
  cbn [kbs snd]. destruct (bval v) as [o|]; [|reflexivity]. destruct nm as [|c nm]; [contradiction|]. unfold rest. destruct hs as [|h2 hs].
  - cbn [past]. replace (n0 - len tb - 4 <? n0 - len tb) with true by lia. reflexivity.
  - cbn [past]. replace (n0 - len tb - 4 <? n0 - len (concat (map render_header (h2 :: hs)) ++ CRLF ++ tb)) with false.
    2: { rewrite !len_app. change (len CRLF) with 2. cbn [map concat]. rewrite len_app. unfold render_header at 1. rewrite !len_app. change (len CRLF) with 2.
         change (len (str ": ")) with 2. pose proof (len_nonneg _ (fst h2)). pose proof (len_nonneg _ (snd h2)). pose proof (len_nonneg _ (concat (map render_header hs))). lia. }
    rewrite IH; [reflexivity|discriminate|assumption|lia|assumption].
Qed.
Lemma kbt_render : forall l0 hs tb, one_line l0 -> plain_headers hs -> no_leading_newline tb ->
  kb_text (l0 ++ CRLF ++ concat (map render_header hs) ++ CRLF ++ tb) = kbs hs None.
Proof.
  intros l0 hs tb L0 [Ln F] B. unfold kb_text. fold pat. rewrite find_head by assumption.
  set (w := l0 ++ CRLF ++ concat (map render_header hs) ++ CRLF ++ tb).
  assert (Lw : len l0 + len (concat (map render_header hs)) = len w - len tb - 4) by (unfold w; rewrite !len_app; change (len CRLF) with 2; lia).
  rewrite Lw. destruct hs as [|h hs]; [cbn in Ln; lia|].
  assert (E : snd (cut [13; 10] [13; 10] w) = concat (map render_header (h :: hs)) ++ CRLF ++ tb).
  { unfold w. change (CRLF ++ concat (map render_header (h :: hs)) ++ CRLF ++ tb) with (13 :: [10] ++ (concat (map render_header (h :: hs)) ++ CRLF ++ tb)).
    rewrite cut_exact; [reflexivity| |reflexivity|repeat constructor|].
    - eapply Forall_impl; [|exact L0]. cbn. intros c C. lia.
    - inversion F; subst. cbn [map concat]. rewrite <- app_assoc.
      destruct (plain_start h (concat (map render_header hs) ++ CRLF ++ tb) H1) as (c & t & -> & C1 & C2). cbn. lia. }
  rewrite E. apply kb_render; [discriminate|assumption|unfold len in Ln; lia|assumption].
Qed.
(** The client sees the headers and the body that were sent. *)
Theorem the_keygen_response : forall d code hs body, response d code hs body -> clean_head d body -> plain_headers hs -> no_leading_newline body ->
  kb_text (text d) = kbs hs None /\ kg_body d = text body.
Proof.
  intros d code hs body (num & reason & Dn & L3 & Lr & _ & E) (head & Eh & Nh) P B.
  assert (E' : d = ((str "HTTP/1.1 " ++ num ++ str " " ++ reason) ++ CRLF ++ concat (map render_header hs) ++ CRLF) ++ body) by (rewrite E, <- !app_assoc; reflexivity).
  assert (head = (str "HTTP/1.1 " ++ num ++ str " " ++ reason) ++ CRLF ++ concat (map render_header hs) ++ CRLF).
  { rewrite Eh in E'. now apply app_inv_tail in E'. }
  assert (Et : text d = (str "HTTP/1.1 " ++ num ++ str " " ++ reason) ++ CRLF ++ concat (map render_header hs) ++ CRLF ++ text body).
  { rewrite Eh, text_app by exact Nh. subst head. rewrite <- !app_assoc. reflexivity. }
  assert (O : one_line (str "HTTP/1.1 " ++ num ++ str " " ++ reason)).
  { apply Forall_app; split; [repeat constructor; discriminate|].
    apply Forall_app; split; [|apply Forall_app; split; [repeat constructor; discriminate|exact Lr]]. destruct Dn as (_ & Dn & _). eapply Forall_impl; [|exact Dn]. cbn. lia. }
  unfold kg_body. rewrite Et. rewrite kbt_render, resp_render by auto using text_newline. auto.
Qed.

(** ** Announcing a boundary *)
Lemma boundary_facts : forall c, In c boundary_chars -> boundary_char c = true /\ c <> 34 /\ c <> 59 /\ c <> 0.
Proof. intros c I. cbn in I. repeat (destruct I as [<-|I]; [repeat split; discriminate|]). contradiction. Qed.
Lemma strip_spaces_end : forall x sp, Forall (fun c => c = 32) sp -> strip (x ++ sp) = strip x.
Proof.
  intros x sp F. induction sp as [|c sp IH] using rev_ind; [now rewrite app_nil_r|]. apply Forall_app in F as [F1 F2]. inversion F2; subst.
  rewrite app_assoc, strip_snoc. now apply IH.
Qed.
Lemma strip_solid : forall x, last x 0 <> 32 -> strip x = x.
Proof. intros x H. induction x as [|c x _] using rev_ind; [reflexivity|]. rewrite strip_snoc. rewrite last_last in H. now replace (c =? 32) with false by lia. Qed.
Lemma take_while_all_app : forall f a b, Forall (fun c => f c = true) a -> match b with [] => True | c :: _ => f c = false end -> take_while f (a ++ b) = a.
Proof.
  induction a as [|c a IH]; intros b F H; cbn [app].
  - destruct b as [|c b]; [reflexivity|]. cbn [take_while]. now rewrite H.
  - inversion F; subst. cbn [take_while]. rewrite H2. f_equal. now apply IH.
Qed.
Lemma san_announced : forall B x sp rest, boundary_string 70 B -> x = B \/ x = 34 :: B ++ [34] -> Forall (fun c => c = 32) sp -> rest = [] \/ hd 0 rest = 59 ->
  san (x ++ sp ++ rest) = B.
Proof.
  intros B x sp rest (Lb & Fb & Hl) X Fs R.
  assert (Nb : B <> []) by (intros ->; cbn in Lb; lia).
  assert (Lx : len x <= 72). { destruct X as [->| ->]; rewrite ?len_cons, ?len_app; change (len [34]) with 1; lia. }
  assert (Fx : Forall (fun c => c <> 59) x).
  { assert (Forall (fun c => c <> 59) B) by (eapply Forall_impl; [|exact Fb]; intros c I; apply boundary_facts in I; tauto).
    destruct X as [->| ->]; [assumption|]. constructor; [lia|]. apply Forall_app. split; [assumption|]. constructor; [lia|constructor]. }
  assert (Hx : last x 0 <> 32). { destruct X as [->| ->]; [exact Hl|]. change (34 :: B ++ [34]) with ((34 :: B) ++ [34]). rewrite last_last. lia. }
  unfold san, trim. rewrite firstn_app, (firstn_all2 x) by (unfold len in Lx; lia). rewrite firstn_app. set (k := (72 - length x)%nat). set (sp' := firstn k sp).
  assert (Fs' : Forall (fun c => c = 32) sp') by (unfold sp'; apply Forall_forall; intros c I; rewrite Forall_forall in Fs; apply Fs; rewrite <- (firstn_skipn k sp); apply in_or_app; now left).
  rewrite app_assoc. rewrite take_while_all_app.
  - rewrite strip_spaces_end by exact Fs'. rewrite strip_solid by exact Hx. destruct X as [->| ->].
    + unfold unquote. destruct B as [|c B]; [contradiction|]. inversion Fb; subst. apply boundary_facts in H1. replace (c =? 34) with false by lia. reflexivity.
    + unfold unquote. change (last (34 :: B ++ [34]) 0) with (last ((34 :: B) ++ [34]) 0). rewrite last_last. change ((34 =? 34) && (34 =? 34)) with true. cbv iota. apply removelast_last.
  - apply Forall_app. split; [eapply Forall_impl; [|exact Fx]; cbn; lia|eapply Forall_impl; [|exact Fs']; cbn; intros; lia].
  - destruct (firstn (k - length sp) rest) as [|c r] eqn:Er; [exact I|]. destruct R as [->|R]; [rewrite firstn_nil in Er; discriminate|].
    destruct rest as [|c' rest]; [rewrite firstn_nil in Er; discriminate|]. cbn in R. destruct (k - length sp)%nat; [discriminate|]. cbn [firstn] in Er. injection Er as <- _. subst c'. reflexivity.
Qed.
Lemma bval_announced : forall v B, boundary_string 70 B -> announces v B -> bval v = Some (Some B).
Proof.
  intros v B HB (x & sp & rest & -> & X & Fs & R). pose proof (san_announced B x sp rest HB X Fs R) as Sn. set (z := x ++ sp ++ rest) in *.
  unfold bval.
  assert (E1 : find_sub (str "multipart") (str "multipart/mixed; boundary=" ++ z) = Some 0) by reflexivity.
  assert (E2 : find_sub (str "multipart/mixed") (str "multipart/mixed; boundary=" ++ z) = Some 0) by reflexivity.
  assert (E3 : find_sub (str "boundary=") (str "multipart/mixed; boundary=" ++ z) = Some 17) by reflexivity.
  rewrite E1, E2, E3. change (skipn (Z.to_nat (17 + 9)) (str "multipart/mixed; boundary=" ++ z)) with z. rewrite Sn. destruct HB as (Lb & Fb & _).
  replace (1 <=? len B) with true by lia. replace (len B <=? 70) with true by lia. cbn [andb].
  replace (forallb boundary_char B) with true; [reflexivity|]. symmetry. apply forallb_forall. intros c I. rewrite Forall_forall in Fb. apply Fb in I. now apply boundary_facts in I.
Qed.
Lemma find_sub_none : forall p s, find_sub p s = None -> ~ occurs p s.
Proof.
  induction s as [|c s IH]; intros H (a & b & E); cbn [find_sub] in H.
  - destruct (prefixb p []) eqn:P; [discriminate|]. destruct a as [|? ?]; [|discriminate]. assert (prefixb p [] = true) by (apply prefixb_spec; exists b; exact E). congruence.
  - destruct (prefixb p (c :: s)) eqn:P; [discriminate|]. destruct (find_sub p s); [discriminate|]. destruct a as [|x a].
    + assert (prefixb p (c :: s) = true) by (apply prefixb_spec; exists b; exact E). congruence.
    + injection E as _ E. apply IH; [reflexivity|]. exists a, b. exact E.
Qed.
Lemma find_sub_absent : forall p s, ~ occurs p s -> find_sub p s = None.
Proof. intros p s N. destruct (find_sub p s) eqn:E; [|reflexivity]. apply find_sub_some in E as (a & b & -> & _). exfalso. apply N. exists a, b. reflexivity. Qed.

Lemma kbs_announced : forall B hs acc, boundary_string 70 B -> Forall (fun h => occurs (str "multipart") (snd h) -> announces (snd h) B) hs ->
  (acc = Some B \/ Exists (fun h => announces (snd h) B) hs) -> kbs hs acc = Some (Some B).
Proof.
  induction hs as [|h hs IH]; intros acc HB F X.
  - destruct X as [->|X]; [reflexivity|inversion X].
  - inversion F as [|? ? Fh Fr]; subst. cbn [kbs].
    destruct (find_sub (str "multipart") (snd h)) eqn:E.
    + apply find_sub_some in E as (a & b & E & _). assert (A : announces (snd h) B) by (apply Fh; exists a, b; exact E).
      rewrite (bval_announced _ _ HB A). apply IH; auto.
    + unfold bval. rewrite E. apply IH; auto. destruct X as [X|X]; [now left|]. inversion X as [? ? A|? ? A]; subst; [|now right].
      exfalso. apply (find_sub_none _ _ E). destruct A as (x & sp & rest & -> & _). exists [], (str "/mixed; boundary=" ++ x ++ sp ++ rest). reflexivity.
Qed.

(** ** The round trip *)
Lemma no_nul_join : forall a b, no_nul a -> no_nul b -> no_nul (a ++ b).
Proof. intros. apply no_nul_app. auto. Qed.
Lemma render_no_nul : forall bnd ct hs d, no_nul bnd -> part_headers ct hs -> no_nul d -> no_nul (render_part bnd hs d).
Proof.
  intros bnd ct hs d Nb (_ & F & _) Nd. unfold render_part. repeat apply no_nul_join; auto; try (apply no_nul_lit; reflexivity).
  induction F as [|h hs (_ & _ & Fn & _ & Nv & _) F IH]; cbn [map concat]; [intros []|]. apply no_nul_join; [|exact IH]. unfold render_header.
  repeat apply no_nul_join; try (apply no_nul_lit; reflexivity); [|exact Nv]. intro I. rewrite Forall_forall in Fn. apply Fn in I. destruct I as [[I|I]|I]; lia.
Qed.
Theorem keygen_round_trip : forall junk evs d c hs body B key cert, arrives evs d -> response d 200 hs body -> clean_head d body -> plain_headers hs ->
  no_leading_newline body -> len d + 45 <= 2000000 ->
  announced hs B -> boundary_string 69 B -> hd 0 B <> 45 -> two_parts B key cert body ->
  part_text key -> 256 <= len key <= 8192 -> part_text cert -> 128 <= len cert <= 8192 ->
  est_io_get_keygen_response junk evs c = Ok (EST_ERR_NONE, Some (key, cert), set_status 200 c).
Proof.
  intros junk evs d c hs body B key cert A R C P Nl L [An1 An2] HB HB0 T Tk Lk Tc Lc.
  assert (HB70 : boundary_string 70 B) by (destruct HB as (? & ? & ?); repeat split; auto; lia).
  destruct (the_keygen_response d 200 hs body R C P Nl) as [Ek Eb].
  assert (Rd : est_io_read_raw evs [] = (EST_ERR_NONE, d)) by (apply read_arrives; [exact A|unfold EST_CA_MAX; lia]).
  assert (St : first_status status_codes d = 200) by (eapply status_of; [exact R|cbn; auto]).
  assert (Ld : 0 < len d). { destruct R as (num & reason & _ & _ & _ & _ & E). rewrite E, len_app. change (len (str "HTTP/1.1 ")) with 9. match goal with |- 0 < 9 + len ?x => pose proof (len_nonneg _ x) end. lia. }
  pose proof (keygen_run junk evs d c Rd Ld ltac:(unfold EST_CA_MAX; lia)) as K. cbv zeta in K.
  rewrite Ek, (kbs_announced B hs None HB70 An1 (or_intror An2)), St in K.
  destruct K as (_ & _ & K). destruct (K eq_refl B eq_refl) as (_ & pre & post & Lp & _ & _ & K'). clear K. rewrite K'. clear K'. rewrite Eb.
  destruct T as (pr & hs1 & d1 & hs2 & d2 & po & -> & Npr & U & Ca).
  assert (NB : no_nul B). { destruct HB as (_ & Fb & _). intro I. rewrite Forall_forall in Fb. apply Fb in I. apply boundary_facts in I. tauto. }
  assert (Nk : no_nul key) by apply Tk. assert (Nc : no_nul cert) by apply Tc.
  assert (N1 : no_nul (render_part B hs1 d1)) by (destruct Ca as [(H1 & -> & _)|(H1 & -> & _)]; eapply render_no_nul; eauto).
  assert (N2 : no_nul (render_part B hs2 d2)) by (destruct Ca as [(_ & _ & H1 & ->)|(_ & _ & H1 & ->)]; eapply render_no_nul; eauto).
  assert (Et : text (pr ++ render_part B hs1 d1 ++ render_part B hs2 d2 ++ str "--" ++ B ++ str "--" ++ po) =
               pr ++ render_part B hs1 d1 ++ render_part B hs2 d2 ++ 45 :: (45 :: B ++ str "--" ++ text po)).
  { rewrite !text_app by (auto; apply no_nul_lit; reflexivity). reflexivity. }
  rewrite Et. set (y := 45 :: B ++ str "--" ++ text po). set (W := render_part B hs1 d1 ++ render_part B hs2 d2 ++ 45 :: y).
  assert (NW : no_nul W). { unfold W, y. repeat (apply no_nul_join; auto). intros [I|[I|I]]; try discriminate. revert I. apply no_nul_join; auto. apply no_nul_join; [apply no_nul_lit; reflexivity|apply text_no_nul]. }
  assert (Fi : find_sub B (pr ++ W) = Some (len pr + 2)).
  { unfold W. unfold render_part at 1. rewrite <- !app_assoc. rewrite (app_assoc pr (str "--")). rewrite find_sub_exact; [rewrite len_app; reflexivity|].
    intros x y0 E. apply (U x y0). rewrite app_assoc. exact E. }
  rewrite Fi. replace (len pre + (len pr + 2) - 2) with (len (pre ++ pr)) by (rewrite len_app; lia).
  rewrite (payload_two junk _ B (pre ++ pr) hs1 d1 hs2 d2 key cert y post); auto; try lia.
  - cbn [bind]. change (negb (err_eqb EST_ERR_NONE EST_ERR_NONE)) with false. cbv iota. replace (len key <? 256) with false by lia. replace (len cert <? 128) with false by lia. reflexivity.
  - destruct HB as (? & _). lia.
  - destruct B as [|b B]; [destruct HB as (Lz & _); cbn in Lz; lia|]. exact HB0.
  - fold W. rewrite <- !app_assoc. reflexivity.
Qed.
