(** Key generation responses with arbitrary bodies. *)
From Coq Require Import String ZArith List Bool Lia ZifyBool ZifyNat.
From Verif Require Import Base Spec.Http Spec.Server Spec.Client Spec.Multipart Model.CLib Model.EstErr Model.HttpServer Model.ClientHttp Model.Multipart
  Proofs.EstErr Proofs.HttpParse Proofs.HttpRender Proofs.ClientHeaders Proofs.ClientHttp Proofs.ClientRender Proofs.MultipartRun Proofs.MultipartHeaders Proofs.MultipartResponse Proofs.MultipartSafe.
Import ListNotations.
Open Scope Z_scope.

(** ** The parser on a text in memory *)
Lemma colons_app' : forall x y, colons (x ++ y) = colons x + colons y.
Proof. intros. unfold colons. rewrite filter_app, len_app. reflexivity. Qed.
Lemma colons_pos : forall x, 0 <= colons x.
Proof. intro. apply len_nonneg. Qed.
Lemma colons_firstn : forall k x, colons (firstn k x) <= colons x.
Proof. intros k x. rewrite <- (firstn_skipn k x) at 2. rewrite colons_app'. pose proof (colons_pos (skipn k x)). lia. Qed.
Lemma colons_skipn : forall k x, colons (skipn k x) <= colons x.
Proof. intros k x. rewrite <- (firstn_skipn k x) at 2. rewrite colons_app'. pose proof (colons_pos (firstn k x)). lia. Qed.
Lemma strspn_bounds : forall w s, 0 <= est_strspn w s <= len w.
Proof.
  intros w s. unfold est_strspn. split; [apply len_nonneg|]. induction w as [|c w IH]; cbn [take_while]; [change (len []) with 0; lia|].
  destruct (memb c s); rewrite ?len_cons; change (len []) with 0; pose proof (len_nonneg _ w); lia.
Qed.
Lemma parse_good : forall junk a w post bnd, harmless junk -> no_nul w -> 1 <= len bnd <= 68 ->
  let h := est_strspn w [45] in let t := skipn (Z.to_nat h) (w ++ 0 :: post) in
  h + 1 <= len post -> colons (firstn (Z.to_nat (len w)) t) <= 15 ->
  exists rv key cert, parse_remaining_multipart_payload junk (a ++ w ++ 0 :: post) (len a) bnd = Ok (rv, key, cert)
    /\ (rv = EST_ERR_NONE -> content t (len w) key_type key /\ content t (len w) cert_type cert).
Proof.
  intros junk a w post bnd J Nw Lb h t Lh Cn. pose proof (strspn_bounds w [45]) as Hh. fold h in Hh. pose proof (len_nonneg _ w) as Lw.
  unfold parse_remaining_multipart_payload, LOOKBEHIND. replace (70 <=? len bnd) with false by lia. rewrite cstr_at_app by exact Nw. cbn [bind]. fold h.
  set (a' := a ++ firstn (Z.to_nat h) (w ++ 0 :: post)).
  assert (Em : a ++ w ++ 0 :: post = a' ++ t). { unfold a', t. rewrite <- app_assoc. rewrite firstn_skipn. reflexivity. }
  assert (La : len a + h = len a'). { unfold a'. rewrite len_app, len_firstn, len_app, len_cons. pose proof (len_nonneg _ post). lia. }
  assert (Lt : len w + 2 <= len t). { unfold t. rewrite len_skipn, len_app, len_cons. pose proof (len_nonneg _ post). lia. }
  destruct (loop_good junk J (a ++ w ++ 0 :: post) (len a + h) bnd (len w) a' t Em La Lt Lb Cn (S (2 * Z.to_nat (len w))) 0 multipart_parser_init) as (k & q & E & St).
  - lia.
  - intros _. apply inv_intro; [cbn; lia| |constructor|exact I]. cbn [p_hdrs multipart_parser_init p_state pend]. change (len []) with 0. apply (colons_pos (R t 0)).
  - split; left; reflexivity.
  - cbn [bonus p_state multipart_parser_init]. lia.
  - rewrite E. cbn [bind]. eexists _, _, _. split; [reflexivity|]. unfold both_populated. intro Rv.
    destruct (Z.eqb_spec (len (p_cert q)) 0) as [C0|C0]; [exfalso; revert Rv; cbn [negb andb]; destruct (k <? len w); discriminate|].
    destruct (Z.eqb_spec (len (p_key q)) 0) as [K0|K0]; [exfalso; revert Rv; cbn [negb andb]; destruct (k <? len w); discriminate|].
    destruct St as [[Sk|Sk] [Sc|Sc]]; [rewrite Sk in K0; exfalso; apply K0; reflexivity|rewrite Sk in K0; exfalso; apply K0; reflexivity|rewrite Sc in C0; exfalso; apply C0; reflexivity|auto].
Qed.
Lemma content_shift : forall u t e ct d, content t e ct d -> content (u ++ t) (len u + e) ct d.
Proof.
  intros u t e ct d (x & y & E & L & X & H1 & H2 & Le & Y). exists (u ++ x), y. rewrite E, len_app, <- app_assoc. split; [reflexivity|]. split; [exact L|]. split; [exact X|].
  assert (Hh : forall n v, header_in x n v -> header_in (u ++ x) n v).
  { intros n v (p & nm & sp & v' & q & -> & S1 & S2 & S3). exists (u ++ p), nm, sp, v', q. rewrite <- app_assoc. auto. }
  split; [auto|]. split; [auto|]. split; [lia|]. destruct Y as [Y|Y]; [left; lia|right; exact Y].
Qed.
Lemma colons_zeros : forall k, colons (repeat 0 k) = 0.
Proof. induction k as [|k IH]; [reflexivity|exact IH]. Qed.
Lemma filter_len : forall (f : Z -> bool) x, len (filter f x) <= len x.
Proof. intros f x. induction x as [|c x IH]; cbn [filter]; [lia|]. destruct (f c); rewrite ?len_cons; lia. Qed.
Lemma no_nul_skipn : forall k x, no_nul x -> no_nul (skipn k x).
Proof. intros k x H I. apply H. rewrite <- (firstn_skipn k x). apply in_or_app. now right. Qed.

(** ** The whole response *)
Theorem keygen_sound : forall junk evs d c hs body B, harmless junk ->
  arrives evs d -> response d 200 hs body -> clean_head d body -> plain_headers hs -> no_leading_newline body -> len d <= 999000 ->
  announced hs B -> boundary_string 68 B -> occurs B (text body) -> colons body <= 15 ->
  exists rv r, est_io_get_keygen_response junk evs c = Ok (rv, r, set_status 200 c)
    /\ match r with
       | None => rv <> EST_ERR_NONE
       | Some (key, cert) => rv = EST_ERR_NONE /\ 256 <= len key <= 8192 /\ 128 <= len cert <= 8192
           /\ exists k e, e <= len body + k /\ content (body ++ repeat 0 (Z.to_nat k)) e key_type key /\ content (body ++ repeat 0 (Z.to_nat k)) e cert_type cert
       end.
Proof.
  intros junk evs d c hs body B J A R C P Nl L [An1 An2] HB Oc Co.
  assert (HB70 : boundary_string 70 B) by (destruct HB as (? & ? & ?); repeat split; auto; lia).
  destruct (the_keygen_response d 200 hs body R C P Nl) as [Ek Eb].
  assert (Rd : est_io_read_raw evs [] = (EST_ERR_NONE, d)) by (apply read_arrives; [exact A|unfold EST_CA_MAX; lia]).
  assert (St : first_status status_codes d = 200) by (eapply status_of; [exact R|cbn; auto]).
  destruct C as (head & Ed & Nh).
  assert (Ehd : exists u, head = str "HTTP/1.1 " ++ u).
  { destruct R as (num & reason & _ & _ & _ & _ & E). rewrite Ed in E. exists (num ++ str " " ++ reason ++ CRLF ++ concat (map render_header hs) ++ CRLF).
    apply (app_inv_tail body). rewrite E, <- !app_assoc. reflexivity. }
  assert (Lh : 9 <= len head). { destruct Ehd as (u & ->). rewrite len_app. change (len (str "HTTP/1.1 ")) with 9. pose proof (len_nonneg _ u). lia. }
  assert (Ldb : len d = len head + len body) by (rewrite Ed, len_app; reflexivity). pose proof (len_nonneg _ body) as Lb0.
  pose proof (keygen_run junk evs d c Rd ltac:(lia) ltac:(unfold EST_CA_MAX; lia)) as K. cbv zeta in K.
  rewrite Ek, (kbs_announced B hs None HB70 An1 (or_intror An2)), St in K.
  destruct K as (_ & _ & K). destruct (K eq_refl B eq_refl) as (_ & pre & post & Lp & Cl & Eq & K'). clear K. rewrite K'. clear K'. rewrite Eb in *.
  assert (Ep : len pre = len head). { rewrite Ed, text_app in Lp by exact Nh. rewrite len_app in Lp. lia. }
  assert (Eq' : text body ++ 0 :: post = body ++ repeat 0 (Z.to_nat (EST_CA_MAX - len d))).
  { rewrite Eq, Ep. rewrite Ed at 1. rewrite skipn_len_app. reflexivity. }
  set (k := EST_CA_MAX - len d) in *. assert (Hk : 1001000 <= k) by (unfold k, EST_CA_MAX; lia). clearbody k. clear Eq.
  assert (Lt : len (text body) + len post + 1 = len body + k). { pose proof (f_equal (@len Z) Eq') as Q. rewrite !len_app, len_cons, len_repeat in Q. lia. }
  pose proof (text_len body) as Ltb. pose proof (len_nonneg _ (text body)) as Lt0.
  assert (Nt : no_nul (text body)) by apply text_no_nul.
  assert (Cb : colons (text body ++ 0 :: post) <= 15).
  { rewrite Eq', colons_app'. replace (colons (repeat 0 (Z.to_nat k))) with 0; [lia|]. symmetry. apply colons_zeros. }
  assert (LB : 1 <= len B <= 68) by (destruct HB as (? & _); lia).
  destruct (find_sub B (text body)) as [f|] eqn:Ef; [|exfalso; revert Oc; now apply find_sub_none].
  pose proof (find_sub_some _ _ _ Ef) as (u & v & Ev & Lf). pose proof (len_nonneg _ u) as Lu.
  assert (Lv : f <= len (text body)). { rewrite Ev, !len_app. pose proof (len_nonneg _ v). lia. }
  assert (Fin : forall rv key cert, (rv = EST_ERR_NONE -> exists e, e <= len body + k /\ content (body ++ repeat 0 (Z.to_nat k)) e key_type key /\ content (body ++ repeat 0 (Z.to_nat k)) e cert_type cert) ->
    exists rv' r, Ok (if negb (err_eqb rv EST_ERR_NONE) then (rv, None, set_status 200 c)
                   else if (len key <? 256) || (len cert <? 128) then (EST_ERR_ZERO_LENGTH_BUF, None, set_status 200 c)
                   else (EST_ERR_NONE, Some (key, cert), set_status 200 c)) = Ok (rv', r, set_status 200 c)
    /\ match r with
       | None => rv' <> EST_ERR_NONE
       | Some (key, cert) => rv' = EST_ERR_NONE /\ 256 <= len key <= 8192 /\ 128 <= len cert <= 8192
           /\ exists k e, e <= len body + k /\ content (body ++ repeat 0 (Z.to_nat k)) e key_type key /\ content (body ++ repeat 0 (Z.to_nat k)) e cert_type cert
       end).
  { intros rv key cert H. destruct (err_eqb rv EST_ERR_NONE) eqn:Er; cbn [negb].
    - apply EstErr.err_eqb_eq in Er. destruct (H Er) as (e & Le & Ck & Cc). destruct (Z.ltb_spec (len key) 256) as [Q|Q]; cbn [orb].
      { eexists _, _. split; [reflexivity|]. cbv beta iota. discriminate. }
      destruct (Z.ltb_spec (len cert) 128) as [Q'|Q']. { eexists _, _. split; [reflexivity|]. cbv beta iota. discriminate. }
      eexists _, _. split; [reflexivity|]. cbv beta iota. pose proof Ck as (x1 & y1 & _ & L1 & _). pose proof Cc as (x2 & y2 & _ & L2 & _).
      split; [reflexivity|]. split; [lia|]. split; [lia|]. exists k, e. auto.
    - eexists _, _. split; [reflexivity|]. cbv beta iota. intros ->. discriminate. }
  assert (Tiny : forall a w q, no_nul w -> len w <= 1 -> pre ++ text body ++ 0 :: post = a ++ w ++ 0 :: q -> len a = len pre + f - 2 ->
    exists rv key cert, parse_remaining_multipart_payload junk (pre ++ text body ++ 0 :: post) (len pre + f - 2) B = Ok (rv, key, cert) /\ rv <> EST_ERR_NONE).
  { intros a w q Nw Lw E La. rewrite E, <- La. pose proof (strspn_bounds w [45]) as Hs. pose proof (len_nonneg _ w).
    destruct (parse_good junk a w q B J Nw LB) as (rv & key & cert & E1 & H1).
    - pose proof (f_equal (@len Z) E) as Q. rewrite !len_app, !len_cons in Q. lia.
    - etransitivity; [unfold colons; apply filter_len|]. rewrite len_firstn. lia.
    - exists rv, key, cert. split; [exact E1|]. intro Q. destruct (H1 Q) as [(x & y & _ & Ly & _ & _ & _ & Le & _) _]. pose proof (len_nonneg _ x). lia. }
  destruct (Z_le_dec 2 f) as [F2|F2].
  - set (w := skipn (Z.to_nat (f - 2)) (text body)). set (a := firstn (Z.to_nat (f - 2)) (text body)).
    assert (Ea : text body = a ++ w) by (symmetry; apply firstn_skipn).
    assert (La : len a = f - 2) by (unfold a; rewrite len_firstn; lia).
    assert (Lw : len w = len (text body) - (f - 2)) by (unfold w; rewrite len_skipn; lia).
    pose proof (strspn_bounds w [45]) as Hs.
    destruct (parse_good junk (pre ++ a) w post B J) as (rv & key & cert & E1 & H1); auto.
    + now apply no_nul_skipn.
    + lia.
    + etransitivity; [apply colons_firstn|]. etransitivity; [apply colons_skipn|]. rewrite Ea, <- app_assoc, colons_app' in Cb. pose proof (colons_pos a). lia.
    + rewrite Ea. replace (len pre + f - 2) with (len (pre ++ a)) by (rewrite len_app; lia). rewrite <- !app_assoc in *. rewrite E1. cbn [bind].
      apply Fin. intro Q. destruct (H1 Q) as [Ck Cc]. set (h := est_strspn w [45]) in *.
      exists (len (a ++ firstn (Z.to_nat h) (w ++ 0 :: post)) + len w).
      assert (Es : body ++ repeat 0 (Z.to_nat k) = (a ++ firstn (Z.to_nat h) (w ++ 0 :: post)) ++ skipn (Z.to_nat h) (w ++ 0 :: post)).
      { rewrite <- Eq', Ea, <- !app_assoc. rewrite firstn_skipn. reflexivity. }
      rewrite Es. split; [|split; now apply content_shift]. rewrite len_app, len_firstn, len_app, len_cons. lia.
  - assert (B0 : text body <> []). { intro Z0. rewrite Z0 in Ev. pose proof (f_equal (@len Z) Ev) as Q. rewrite !len_app in Q. change (len []) with 0 in Q. pose proof (len_nonneg _ v). lia. }
    destruct Cl as [Cl|(p & Cl)]; [contradiction|].
    assert (Lp' : len pre = len p + 1) by (rewrite Cl, len_app; reflexivity).
    assert (G : exists rv key cert, parse_remaining_multipart_payload junk (pre ++ text body ++ 0 :: post) (len pre + f - 2) B = Ok (rv, key, cert) /\ rv <> EST_ERR_NONE).
    { destruct (Z.eq_dec f 1) as [F1|F1].
      - apply (Tiny p [] (text body ++ 0 :: post)); [intros []|cbn; lia|rewrite Cl, <- app_assoc; reflexivity|lia].
      - destruct (exists_last (l := p)) as (p' & x & Ex); [intros ->; change (len []) with 0 in Lp'; lia|]. rewrite Ex in *.
        rewrite len_app in Lp'. change (len [x]) with 1 in Lp'. destruct (Z.eq_dec x 0) as [->|X].
        + apply (Tiny p' [] (0 :: text body ++ 0 :: post)); [intros []|cbn; lia|rewrite Cl, <- !app_assoc; reflexivity|lia].
        + apply (Tiny p' [x] (text body ++ 0 :: post)); [intros [Q|[]]; lia|cbn; lia|rewrite Cl, <- !app_assoc; reflexivity|lia]. }
    destruct G as (rv & key & cert & -> & Nr). cbn [bind]. apply Fin. intro Q. contradiction.
Qed.

(** ** Where it goes wrong *)
Lemma arrived_run : forall junk evs d c hs body, arrives evs d -> response d 200 hs body -> clean_head d body -> plain_headers hs -> no_leading_newline body ->
  len d + 45 <= 2000000 ->
  match kbs hs None with
  | None => est_io_get_keygen_response junk evs c = Ok (EST_ERR_MULTIPART_PARSE, None, set_status 200 c)
  | Some None => est_io_get_keygen_response junk evs c = Ok (EST_ERR_NONE, None, set_status 200 c)
  | Some (Some B) => (~ occurs B (text body) -> est_io_get_keygen_response junk evs c = UB) /\ (70 <= len B -> est_io_get_keygen_response junk evs c = UB)
  end.
Proof.
  intros junk evs d c hs body A R C P Nl L.
  destruct (the_keygen_response d 200 hs body R C P Nl) as [Ek Eb].
  assert (Rd : est_io_read_raw evs [] = (EST_ERR_NONE, d)) by (apply read_arrives; [exact A|unfold EST_CA_MAX; lia]).
  assert (St : first_status status_codes d = 200) by (eapply status_of; [exact R|cbn; auto]).
  assert (Ld : 0 < len d). { destruct R as (num & reason & _ & _ & _ & _ & E). rewrite E, len_app. change (len (str "HTTP/1.1 ")) with 9. match goal with |- 0 < 9 + len ?x => pose proof (len_nonneg _ x) end. lia. }
  pose proof (keygen_run junk evs d c Rd Ld ltac:(unfold EST_CA_MAX; lia)) as K. cbv zeta in K. rewrite Ek, St in K.
  destruct (kbs hs None) as [[B|]|]; [|destruct K as (_ & K & _); now apply K|exact K].
  destruct K as (_ & _ & K). destruct (K eq_refl B eq_refl) as (LB & pre & post & Lp & Cl & Eq & K'). clear K. rewrite K', Eb. split.
  - intro N. now rewrite find_sub_absent.
  - intro L70. destruct (find_sub B (text body)) as [f|]; [|reflexivity]. unfold parse_remaining_multipart_payload, LOOKBEHIND. replace (70 <=? len B) with true by lia. reflexivity.
Qed.
Theorem absent_boundary : forall junk evs d c hs body B, arrives evs d -> response d 200 hs body -> clean_head d body -> plain_headers hs -> no_leading_newline body ->
  len d + 45 <= 2000000 -> announced hs B -> boundary_string 70 B -> ~ occurs B (text body) -> est_io_get_keygen_response junk evs c = UB.
Proof.
  intros junk evs d c hs body B A R C P Nl L [An1 An2] HB N. pose proof (arrived_run junk evs d c hs body A R C P Nl L) as K.
  rewrite (kbs_announced B hs None HB An1 (or_intror An2)) in K. exact (proj1 K N).
Qed.
Theorem long_boundary : forall junk evs d c hs body B, arrives evs d -> response d 200 hs body -> clean_head d body -> plain_headers hs -> no_leading_newline body ->
  len d + 45 <= 2000000 -> announced hs B -> boundary_string 70 B -> len B = 70 -> est_io_get_keygen_response junk evs c = UB.
Proof.
  intros junk evs d c hs body B A R C P Nl L [An1 An2] HB N. pose proof (arrived_run junk evs d c hs body A R C P Nl L) as K.
  rewrite (kbs_announced B hs None HB An1 (or_intror An2)) in K. apply (proj2 K). lia.
Qed.
Lemma kbs_none : forall hs acc, Forall (fun h => ~ occurs (str "multipart") (snd h)) hs -> kbs hs acc = Some acc.
Proof.
  induction hs as [|h hs IH]; intros acc F; [reflexivity|]. inversion F as [|? ? Fh Fr]; subst. cbn [kbs]. unfold bval. rewrite find_sub_absent by exact Fh. now apply IH.
Qed.
Theorem no_multipart : forall junk evs d c hs body, arrives evs d -> response d 200 hs body -> clean_head d body -> plain_headers hs -> no_leading_newline body ->
  len d + 45 <= 2000000 -> Forall (fun h => ~ occurs (str "multipart") (snd h)) hs ->
  est_io_get_keygen_response junk evs c = Ok (EST_ERR_NONE, None, set_status 200 c).
Proof.
  intros junk evs d c hs body A R C P Nl L N. pose proof (arrived_run junk evs d c hs body A R C P Nl L) as K. rewrite kbs_none in K by exact N. exact K.
Qed.
(** A response that is not a 200 gives an error and no key, whatever is in it. *)
Theorem keygen_error : forall junk evs d c, arrives evs d -> 0 < len d -> len d + 45 <= 2000000 -> ~ starts (str "HTTP/1.1 200") d ->
  exists rv c', est_io_get_keygen_response junk evs c = Ok (rv, None, c') /\ rv <> EST_ERR_NONE.
Proof.
  intros junk evs d c A Ld L N.
  assert (Rd : est_io_read_raw evs [] = (EST_ERR_NONE, d)) by (apply read_arrives; [exact A|unfold EST_CA_MAX; lia]).
  pose proof (keygen_run junk evs d c Rd Ld ltac:(unfold EST_CA_MAX; lia)) as K. cbv zeta in K.
  destruct (kb_text (text d)) as [B|]; [|rewrite K; eexists _, _; split; [reflexivity|discriminate]].
  destruct K as (K & _). apply K. unfold status_codes. cbn [first_status]. change (str "HTTP/1.1 " ++ print_int 200) with (str "HTTP/1.1 200").
  destruct (prefixb (str "HTTP/1.1 200") d) eqn:Pf; [exfalso; apply N; now apply prefixb_spec|].
  repeat (match goal with |- context [if ?b then _ else _] => destruct b end); discriminate.
Qed.

(** ** The server's own response *)
Theorem server_body : forall key cert, two_parts (str "est-server-boundary") key cert (keygen_body key cert).
Proof.
  intros key cert. exists [], [(str "Content-Type", key_type); (str "Content-Transfer-Encoding", str "base64")], key,
    [(str "Content-Type", Spec.Multipart.cert_type); (str "Content-Transfer-Encoding", str "base64")], cert, (CRLF ++ CRLF).
  split. { unfold keygen_body, part, render_part, concat, map. rewrite <- ?app_assoc, ?app_nil_r. reflexivity. }
  split; [intros []|]. split.
  { intros x y E. apply (f_equal (@length Z)) in E as El. rewrite !app_length in El. cbn in El.
    destruct x as [|x0 [|x1 [|x2 x]]]; try (cbn in El; lia); [discriminate|discriminate|]. cbn in E. injection E as <- <- E. destruct y; [reflexivity|cbn in El; lia]. }
  assert (Ph : forall ty, ~ In 13 ty -> ~ In 0 ty -> hd 0 ty <> 32 -> part_headers ty [(str "Content-Type", ty); (str "Content-Transfer-Encoding", str "base64")]).
  { intros ty N13 N0 Hd. unfold part_headers. split; [cbn; lia|]. split.
    { constructor; [|constructor; [|constructor]]; unfold part_header; cbn [fst snd].
      - split; [cbn; lia|]. split; [left; cbn; lia|]. split; [repeat (constructor; [unfold letter; cbn; lia|]); constructor|]. split; [exact N13|split; [exact N0|exact Hd]].
      - split; [cbn; lia|]. split; [left; cbn; lia|]. split; [repeat (constructor; [unfold letter; cbn; lia|]); constructor|].
        split; [intro I; repeat (destruct I as [I|I]; [discriminate|]); destruct I|]. split; [intro I; repeat (destruct I as [I|I]; [discriminate|]); destruct I|discriminate]. }
    split; [left; reflexivity|]. split; [right; left; reflexivity|]. split.
    - constructor; [intros _; exists []; cbn [snd]; now rewrite app_nil_r|]. constructor; [|constructor]. intros (t & E). discriminate.
    - constructor; [intros (t & E); discriminate|]. constructor; [|constructor]. intros _. exists []. reflexivity. }
  left. split; [apply Ph|split; [reflexivity|split; [apply Ph|reflexivity]]];
    first [discriminate | intro I; repeat (destruct I as [I|I]; [discriminate|]); destruct I].
Qed.
