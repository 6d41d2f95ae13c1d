(** The multipart parser on arbitrary bodies: it stays inside its buffers, and
    what it returns is content of the body. *)
From Coq Require Import String ZArith List Bool Lia ZifyBool ZifyNat.
From Verif Require Import Base Spec.Http Spec.Server Spec.Client Spec.Multipart Model.CLib Model.EstErr Model.HttpServer Model.ClientHttp Model.Multipart
  Proofs.HttpParse Proofs.HttpRender Proofs.ClientHttp Proofs.MultipartRun Proofs.MultipartHeaders.
Import ListNotations.
Open Scope Z_scope.

(** ** Comparing stored values *)
Lemma value_cmp_harmless : forall lit v g, ~ In g lit -> exists b, value_cmp v g lit = Ok b /\ (b = true <-> starts lit v).
Proof.
  induction lit as [|c lit IH]; intros v g N; cbn [value_cmp].
  - exists true. split; [reflexivity|]. split; [intros _; exists v; reflexivity|reflexivity].
  - destruct v as [|x v].
    + replace (g =? c) with false by (symmetry; apply Z.eqb_neq; intros ->; apply N; now left). exists false. split; [reflexivity|]. split; [discriminate|intros (t & E); discriminate].
    + destruct (Z.eqb_spec x c) as [->|Nx].
      * destruct (IH v g) as (b & E & H); [intro I; apply N; now right|]. exists b. split; [exact E|]. rewrite H. split; intros (t & Et); exists t; [now rewrite Et|now injection Et].
      * exists false. split; [reflexivity|]. split; [discriminate|]. intros (t & Et). injection Et as Ex _. contradiction.
Qed.


Section Any.
Variable junk : bytes -> Z.
Hypothesis J : harmless junk.
Variables (m : bytes) (o : Z) (bnd : bytes) (n : Z) (a t : bytes).
Hypothesis Em : m = a ++ t.
Hypothesis Eo : o = len a.
Hypothesis Lt : n + 2 <= len t.
Hypothesis Lb : 1 <= len bnd <= 68.

Lemma value_is_harmless : forall v lit, lit = PKCS8 \/ lit = PKCS7_CERTS \/ lit = str "base64" -> exists b, value_is junk v lit = Ok b /\ (b = true <-> starts lit v).
Proof.
  intros v lit H. apply value_cmp_harmless. intro I. apply (J v). apply in_or_app. destruct H as [->|[->| ->]]; [now left|right..]; apply in_or_app; [now left|now right].
Qed.

(** ** What has been read *)
Definition R (i : Z) : bytes := firstn (Z.to_nat i) t.
Lemma R_len : forall i, 0 <= i <= n + 2 -> len (R i) = i.
Proof. intros. unfold R. rewrite len_firstn. lia. Qed.
Lemma R_split : forall k i, 0 <= k <= i -> exists d, R i = R k ++ d.
Proof. intros k i H. exists (skipn (Z.to_nat k) (R i)). unfold R. rewrite <- (firstn_skipn (Z.to_nat k) (firstn (Z.to_nat i) t)) at 1. f_equal. rewrite firstn_firstn. f_equal. lia. Qed.
Lemma R_sub : forall k i, 0 <= k <= i -> i <= n + 1 -> exists d, sub m (o + k) (i - k) = Ok d /\ R i = R k ++ d.
Proof.
  intros k i H Hi. destruct (R_split k i H) as (d & E). exists d. split; [|exact E].
  assert (Ld : len d = i - k). { pose proof (f_equal (@len Z) E) as Q. rewrite len_app, !R_len in Q by lia. lia. }
  apply (sub_mid' m (a ++ R k) d (skipn (Z.to_nat i) t)); [|rewrite len_app, R_len by lia; lia|lia].
  rewrite Em, <- app_assoc, (app_assoc (R k)), <- E. f_equal. unfold R. symmetry. apply firstn_skipn.
Qed.
Lemma R_rd : forall i, 0 <= i <= n + 1 -> exists c, rd m (o + i) = Ok c /\ R (i + 1) = R i ++ [c].
Proof.
  intros i H. destruct (R_split i (i + 1)) as (d & E); [lia|].
  assert (Ld : len d = 1). { pose proof (f_equal (@len Z) E) as Q. rewrite len_app, !R_len in Q by lia. lia. }
  destruct d as [|c d]; [cbn in Ld; lia|]. assert (d = []) as ->. { apply len_0_nil. rewrite len_cons in Ld. lia. } exists c. split; [|exact E].
  apply (rd_at m (a ++ R i) c (skipn (Z.to_nat (i + 1)) t)); [|rewrite len_app, R_len by lia; lia].
  rewrite Em, <- app_assoc. change (R i ++ c :: skipn (Z.to_nat (i + 1)) t) with (R i ++ [c] ++ skipn (Z.to_nat (i + 1)) t). rewrite (app_assoc (R i)), <- E. f_equal. unfold R. symmetry. apply firstn_skipn.
Qed.
Hypothesis Cn : colons (R n) <= 15.
Lemma colons_app : forall x y, colons (x ++ y) = colons x + colons y.
Proof. intros. unfold colons. rewrite filter_app, len_app. reflexivity. Qed.
Lemma colons_nonneg : forall x, 0 <= colons x.
Proof. intro. apply len_nonneg. Qed.
Lemma colons_mono : forall k i, 0 <= k <= i -> colons (R k) <= colons (R i).
Proof. intros k i H. destruct (R_split k i H) as (d & ->). rewrite colons_app. pose proof (colons_nonneg d). lia. Qed.

(** ** The invariant *)
Definition line_in (r : bytes) (h : bytes * bytes) : Prop := exists x sp y, r = x ++ fst h ++ 58 :: sp ++ snd h ++ y /\ Forall (fun c => c = 32) sp.
Lemma line_in_app : forall x y h, line_in x h -> line_in (x ++ y) h.
Proof. intros x y h (u & sp & v & -> & F). exists u, sp, (v ++ y). split; [|exact F]. rewrite <- !app_assoc. cbn [app]. rewrite <- !app_assoc. reflexivity. Qed.
Lemma lines_app : forall x y hs, Forall (line_in x) hs -> Forall (line_in (x ++ y)) hs.
Proof. intros x y hs F. eapply Forall_impl; [|exact F]. intros. now apply line_in_app. Qed.
Lemma lines_mono : forall k i hs, 0 <= k <= i -> Forall (line_in (R k)) hs -> Forall (line_in (R i)) hs.
Proof. intros k i hs H F. destruct (R_split k i H) as (d & ->). now apply lines_app. Qed.

(** The callback stores nothing. *)
Definition barren (p : parser) : Prop :=
  match multipart_get_data_ct p, multipart_get_data_cte p with
  | Some _, Some cte => ~ starts (str "base64") cte
  | _, _ => True
  end.
Definition stored (p : parser) : Prop :=
  (p_key p = [] \/ content t n key_type (p_key p)) /\ (p_cert p = [] \/ content t n cert_type (p_cert p)).
Definition pend (s : pstate) : Z := match s with s_header_value_start | s_header_value => 1 | _ => 0 end.
Definition ready (k : Z) (p : parser) : Prop := exists x, R k = x ++ CRLF /\ Forall (line_in x) (p_hdrs p).
Definition at_state (i : Z) (p : parser) : Prop :=
  match p_state p with
  | s_header_value_start => exists x sp, R i = x ++ p_name p ++ 58 :: sp /\ Forall (fun c => c = 32) sp
  | s_header_value => exists x sp, R (p_mark p) = x ++ p_name p ++ 58 :: sp /\ Forall (fun c => c = 32) sp
  | s_headers_almost_done => exists x, R i = x ++ [13] /\ Forall (line_in x) (p_hdrs p)
  | s_part_data_start => ready i p
  | s_part_data => ready (p_mark p) p \/ barren p
  | s_part_data_almost_boundary => barren p
  | s_part_data_boundary => barren p /\ 0 <= p_index p < len bnd
  | _ => True
  end.
Definition Inv (i : Z) (p : parser) : Prop :=
  0 <= p_mark p <= i /\ len (p_hdrs p) + pend (p_state p) <= colons (R i) /\ Forall (line_in (R i)) (p_hdrs p) /\ at_state i p.
Definition good (i : Z) (r : res turn) : Prop :=
  match r with
  | UB => False
  | Ok (Stop _ q) => stored q
  | Ok (Next i' q) => i <= i' /\ stored q /\ (i' < n -> Inv i' q)
  end.

(** ** The callback *)
Lemma barren_cb : forall d p, barren p -> part_data_cb junk d p = Ok (false, p).
Proof.
  intros d p B. unfold part_data_cb, barren in *. destruct (multipart_get_data_ct p) as [ct|]; [|reflexivity]. destruct (multipart_get_data_cte p) as [cte|]; [|reflexivity].
  destruct (value_is_harmless cte (str "base64")) as (b & E & H); [auto|]. rewrite E. cbn [bind]. destruct b; [exfalso; apply B; now apply H|reflexivity].
Qed.
Lemma not_white : forall d, only_whitespace d = false -> Exists (fun c => c <> 32 /\ c <> 13 /\ c <> 10) d.
Proof.
  induction d as [|c d IH]; cbn [only_whitespace forallb]; [discriminate|]. intro H. destruct (memb c [SP; CR; LF]) eqn:M; [right; apply IH; exact H|].
  left. cbn in M. unfold SP, CR, LF in M. lia.
Qed.
Lemma named_line : forall nm x hs v, first_named nm (rev hs) = Some v -> Forall (line_in x) hs -> exists h, line_in x h /\ starts nm (fst h) /\ snd h = v.
Proof.
  intros nm x hs v H F. apply first_named_in in H as (k & I & S). exists (k, v). rewrite <- in_rev in I. rewrite Forall_forall in F. split; [now apply F|auto].
Qed.
Lemma header_of : forall x nm hs v lit, first_named nm (rev hs) = Some v -> Forall (line_in x) hs -> starts lit v -> header_in x nm lit.
Proof.
  intros x nm hs v lit H F S. destruct (named_line _ _ _ _ H F) as ([k v'] & (u & sp & y & E & Fs) & Sn & Ev). cbn [fst snd] in *. subst v'.
  exists u, k, sp, v, y. auto.
Qed.
Lemma ready_cb : forall d p x y, t = x ++ CRLF ++ d ++ y -> Forall (line_in x) (p_hdrs p) -> len x + 2 + len d <= n ->
  (len x + 2 + len d = n \/ exists z, y = 13 :: 45 :: z \/ exists c, y = 13 :: c :: 45 :: z) -> stored p ->
  exists b q, part_data_cb junk d p = Ok (b, q) /\ stored q /\ (b = false -> barren q) /\ (p_hdrs q = p_hdrs p \/ p_hdrs q = []).
Proof.
  intros d p x y Et F Le Y St. unfold part_data_cb. destruct (multipart_get_data_ct p) as [ct|] eqn:Ect.
  2: { exists false, p. split; [reflexivity|]. split; [exact St|]. split; [intros _; unfold barren; now rewrite Ect|now left]. }
  destruct (multipart_get_data_cte p) as [cte|] eqn:Ecte.
  2: { exists false, p. split; [reflexivity|]. split; [exact St|]. split; [intros _; unfold barren; now rewrite Ect, Ecte|now left]. }
  destruct (value_is_harmless cte (str "base64")) as (b & E & H); [auto|]. rewrite E. cbn [bind]. destruct b; cbn [negb].
  2: { exists false, p. split; [reflexivity|]. split; [exact St|]. split; [|now left]. intros _. unfold barren. rewrite Ect, Ecte. intro S. apply H in S. discriminate. }
  assert (Hcte : header_in x (str "Content-Transfer-Encoding") (str "base64")) by (eapply header_of; [exact Ecte|exact F|now apply H]).
  unfold MULTIPART_PARSE_DATA_MAX. destruct (Z.ltb_spec 8192 (len d)) as [G|G]. { exists true, p. split; [reflexivity|]. split; [exact St|]. split; [discriminate|now left]. }
  destruct (value_is_harmless ct PKCS8) as (b1 & E1 & H1); [auto|]. rewrite E1. cbn [bind].
  assert (New : forall ty, starts ty ct -> only_whitespace d = false -> content t n ty d).
  { intros ty S W. exists x, y. split; [exact Et|]. pose proof (not_white d W) as X. split; [|split; [exact X|split; [eapply header_of; [exact Ect|exact F|exact S]|split; [exact Hcte|split; [exact Le|exact Y]]]]].
    destruct d as [|c d']; [inversion X|]. rewrite len_cons in *. pose proof (len_nonneg _ d'). lia. }
  assert (Bn : forall q, p_hdrs q = [] -> barren q) by (intros q Q; unfold barren, multipart_get_data_ct; rewrite Q; exact I).
  destruct b1.
  - destruct (only_whitespace d) eqn:W. { exists true, p. split; [reflexivity|]. split; [exact St|]. split; [discriminate|now left]. }
    cbv zeta. assert (Sq : stored (set_key d p)) by (split; [right; apply New; [now apply H1|reflexivity]|apply St]).
    destruct (both_populated _).
    + exists true, (set_key d p). split; [reflexivity|]. split; [exact Sq|]. split; [discriminate|now left].
    + exists false, (set_hdrs [] (set_key d p)). split; [reflexivity|]. split; [exact Sq|]. split; [intros _; apply Bn; reflexivity|now right].
  - destruct (value_is_harmless ct PKCS7_CERTS) as (b2 & E2 & H2); [auto|]. rewrite E2. cbn [bind]. destruct b2.
    + destruct (only_whitespace d) eqn:W. { exists true, p. split; [reflexivity|]. split; [exact St|]. split; [discriminate|now left]. }
      cbv zeta. assert (Sq : stored (set_cert d p)) by (split; [apply St|right; apply New; [now apply H2|reflexivity]]).
      destruct (both_populated _).
      * exists true, (set_cert d p). split; [reflexivity|]. split; [exact Sq|]. split; [discriminate|now left].
      * exists false, (set_hdrs [] (set_cert d p)). split; [reflexivity|]. split; [exact Sq|]. split; [intros _; apply Bn; reflexivity|now right].
    + destruct (both_populated p).
      * exists true, p. split; [reflexivity|]. split; [exact St|]. split; [discriminate|now left].
      * exists false, (set_hdrs [] p). split; [reflexivity|]. split; [exact St|]. split; [intros _; apply Bn; reflexivity|now right].
Qed.

(** ** One turn *)
Lemma inv_intro : forall i p, 0 <= p_mark p <= i -> len (p_hdrs p) + pend (p_state p) <= colons (R i) -> Forall (line_in (R i)) (p_hdrs p) -> at_state i p -> Inv i p.
Proof. intros. unfold Inv. auto. Qed.
Ltac fld := cbn [p_index p_state p_hdrs p_name p_look p_key p_cert p_mark p_seen_headers p_seen_delim p_payloads set_index set_state set_hdrs set_name set_look set_key set_cert set_mark set_seen_headers set_seen_delim set_payloads] in *.

Lemma start_good : forall i c p, 0 <= i < n -> 0 <= p_mark p <= i -> len (p_hdrs p) <= colons (R i) -> Forall (line_in (R i)) (p_hdrs p) -> stored p ->
  p_state p = s_start_boundary -> good i (Ok (at_start_boundary bnd i c p)).
Proof.
  intros i c p Hi Mk Ch Fl St Es. assert (Mono : colons (R i) <= colons (R (i + 1))) by (apply colons_mono; lia).
  assert (Fl' : Forall (line_in (R (i + 1))) (p_hdrs p)) by (eapply lines_mono; [|exact Fl]; lia).
  unfold at_start_boundary. repeat (match goal with |- context [if ?b then _ else _] => destruct b end); cbn [good]; try exact St;
    (split; [lia|]; split; [exact St|]; intros _; apply inv_intro; fld; rewrite ?Es; cbn [pend]; try lia; [exact Fl'|unfold at_state; fld; rewrite ?Es; exact I]).
Qed.
Lemma name_ok : forall d p, len (p_hdrs p) <= 15 -> read_header_name d p = Ok (set_name d p).
Proof. intros. unfold read_header_name, MAX_PART_HEADERS. now replace (len (p_hdrs p) <? 16) with true by lia. Qed.
Lemma value_ok : forall v p, len (p_hdrs p) <= 14 -> exists q, read_header_value junk v p = Ok q /\ (q = p \/ q = set_hdrs (p_hdrs p ++ [(p_name p, v)]) p).
Proof.
  intros v p L. unfold read_header_value, MAX_PART_HEADERS. replace (len (p_hdrs p) <? 16) with true by lia.
  assert (B : exists b, (if prefixb (str "Content-Type") (p_name p) then k <- value_is junk v PKCS8 ;; if k then Ok true else value_is junk v PKCS7_CERTS
           else if prefixb (str "Content-Transfer-Encoding") (p_name p) then value_is junk v (str "base64") else Ok false) = Ok b).
  { destruct (value_is_harmless v PKCS8) as (b1 & -> & _); [auto|]. destruct (value_is_harmless v PKCS7_CERTS) as (b2 & -> & _); [auto|]. destruct (value_is_harmless v (str "base64")) as (b3 & -> & _); [auto|].
    cbn [bind]. destruct (prefixb (str "Content-Type") (p_name p)); [destruct b1; eauto|]. destruct (prefixb (str "Content-Transfer-Encoding") (p_name p)); eauto. }
  destruct B as ([|] & ->); cbn [bind]; eauto.
Qed.
Lemma field_good : forall i c p, 0 <= i < n -> R (i + 1) = R i ++ [c] -> 0 <= p_mark p <= i -> len (p_hdrs p) <= colons (R i) -> Forall (line_in (R i)) (p_hdrs p) -> stored p ->
  p_state p = s_header_field -> good i (at_header_field m o n i c p).
Proof.
  intros i c p Hi Rc Mk Ch Fl St Es. assert (Mono : colons (R i) <= colons (R (i + 1))) by (apply colons_mono; lia).
  assert (Max : colons (R i) <= 15) by (pose proof (colons_mono i n); lia).
  assert (Fl' : Forall (line_in (R (i + 1))) (p_hdrs p)) by (eapply lines_mono; [|exact Fl]; lia).
  unfold at_header_field. destruct (Z.eqb_spec c CR) as [->|N1].
  { cbn [good]. split; [lia|]. split; [exact St|]. intros _. apply inv_intro; fld; cbn [pend]; try lia; [exact Fl'|]. unfold at_state; fld. exists (R i). auto. }
  destruct (Z.eqb_spec c 58) as [->|N2].
  { destruct (R_sub (p_mark p) i) as (d & -> & Ed); [lia|lia|]. cbn [bind]. rewrite name_ok by (fld; lia). cbn [bind good]. split; [lia|]. split; [exact St|].
    intros _. apply inv_intro; fld; cbn [pend]; try lia.
    - rewrite Rc, colons_app. change (colons [58]) with 1. lia.
    - exact Fl'.
    - unfold at_state; fld. exists (R (p_mark p)), []. split; [|constructor]. rewrite Rc, Ed, <- app_assoc. reflexivity. }
  destruct (_ && _); [exact St|]. destruct (_ && _); [exact St|]. unfold is_last. destruct (Z.eqb_spec i (n - 1)) as [->|N3].
  - destruct (R_sub (p_mark p) (n - 1 + 1)) as (d & E & Ed); [lia|lia|]. replace (n - 1 - p_mark p + 1) with (n - 1 + 1 - p_mark p) by lia. rewrite E. cbn [bind].
    rewrite name_ok by lia. cbn [bind good]. split; [lia|]. split; [exact St|]. lia.
  - cbn [good]. split; [lia|]. split; [exact St|]. intros _. apply inv_intro; rewrite ?Es; cbn [pend]; try lia; [exact Fl'|]. unfold at_state. rewrite Es. exact I.
Qed.
Lemma value_good : forall i c p, 0 <= i < n -> R (i + 1) = R i ++ [c] -> 0 <= p_mark p <= i -> len (p_hdrs p) + 1 <= colons (R i) -> Forall (line_in (R i)) (p_hdrs p) -> stored p ->
  p_state p = s_header_value -> (exists x sp, R (p_mark p) = x ++ p_name p ++ 58 :: sp /\ Forall (fun c => c = 32) sp) -> good i (at_header_value junk m o n i c p).
Proof.
  intros i c p Hi Rc Mk Ch Fl St Es (x & sp & Nm & Fs). assert (Mono : colons (R i) <= colons (R (i + 1))) by (apply colons_mono; lia).
  assert (Max : colons (R i) <= 15) by (pose proof (colons_mono i n); lia).
  assert (Fl' : Forall (line_in (R (i + 1))) (p_hdrs p)) by (eapply lines_mono; [|exact Fl]; lia).
  unfold at_header_value. destruct (Z.eqb_spec c CR) as [->|N1].
  { fld. destruct (R_sub (p_mark p) i) as (d & -> & Ed); [lia|lia|]. cbn [bind]. destruct (value_ok d (set_seen_delim false p)) as (q & -> & Q); [fld; lia|].
    cbn [bind good]. split; [lia|]. destruct Q as [->| ->]; fld.
    - split; [exact St|]. intros _. apply inv_intro; fld; cbn [pend]; try lia; [exact Fl'|]. unfold at_state; fld. exact I.
    - split; [exact St|]. intros _. apply inv_intro; fld; cbn [pend]; try lia; [rewrite len_app; change (len [(p_name p, d)]) with 1; lia| |unfold at_state; fld; exact I].
      apply Forall_app. split; [exact Fl'|]. constructor; [|constructor]. exists x, sp, [CR]. cbn [fst snd]. split; [|exact Fs]. rewrite Rc, Ed, Nm. rewrite <- !app_assoc. cbn [app]. rewrite <- ?app_assoc. reflexivity. }
  fld. unfold is_last. destruct (Z.eqb_spec i (n - 1)) as [->|N3].
  - destruct (R_sub (p_mark p) (n - 1 + 1)) as (d & E & Ed); [lia|lia|]. replace (n - 1 - p_mark p + 1) with (n - 1 + 1 - p_mark p) by lia. rewrite E. cbn [bind].
    destruct (value_ok d (set_seen_delim false p)) as (q & -> & Q); [fld; lia|]. cbn [bind good]. split; [lia|]. split; [destruct Q as [->| ->]; exact St|lia].
  - cbn [good]. split; [lia|]. split; [exact St|]. intros _. apply inv_intro; fld; rewrite ?Es; cbn [pend]; try lia; [exact Fl'|]. unfold at_state. fld. rewrite Es. exists x, sp. auto.
Qed.
(** Handing out data that may be stored. *)
Lemma emit_good : forall d i p (go : parser -> turn),
  (exists b q, part_data_cb junk d p = Ok (b, q) /\ stored q /\ (b = false -> barren q) /\ (p_hdrs q = p_hdrs p \/ p_hdrs q = [])) ->
  (forall q, part_data_cb junk d p = Ok (false, q) -> stored q -> barren q -> (p_hdrs q = p_hdrs p \/ p_hdrs q = []) -> good i (Ok (go q))) ->
  good i (emit_part junk d i p go).
Proof.
  intros d i p go (b & q & E & St & Bn & H) G. unfold emit_part. rewrite E. cbn [bind]. destruct b; [exact St|]. apply G; auto.
Qed.
Lemma data_good : forall i c p, 0 <= i < n -> rd m (o + i) = Ok c -> R (i + 1) = R i ++ [c] -> 0 <= p_mark p <= i -> len (p_hdrs p) <= colons (R i) -> Forall (line_in (R i)) (p_hdrs p) -> stored p ->
  p_state p = s_part_data -> (ready (p_mark p) p \/ barren p) -> good i (at_part_data junk m o n i c p).
Proof.
  intros i c p Hi Rd Rc Mk Ch Fl St Es Rdy. assert (Mono : colons (R i) <= colons (R (i + 1))) by (apply colons_mono; lia).
  assert (Fl' : Forall (line_in (R (i + 1))) (p_hdrs p)) by (eapply lines_mono; [|exact Fl]; lia).
  destruct (R_rd (i + 1)) as (c1 & Rd1 & Rc1); [lia|]. unfold at_part_data. rewrite <- Z.add_assoc, Rd1. cbn [bind].
  assert (Lk : exists b, (if c =? CR then (if c1 =? 45 then Ok true else y <- rd m (o + i + 2) ;; Ok (y =? 45)) else Ok false) = Ok b /\
     (b = true -> exists y, t = R i ++ y /\ exists z, y = 13 :: 45 :: z \/ exists c, y = 13 :: c :: 45 :: z)).
  { destruct (Z.eqb_spec c CR) as [->|]; [|exists false; split; [reflexivity|discriminate]].
    assert (Tl : forall k, 0 <= k -> t = R k ++ skipn (Z.to_nat k) t) by (intros k _; unfold R; symmetry; apply firstn_skipn).
    destruct (Z.eqb_spec c1 45) as [->|].
    - exists true. split; [reflexivity|]. intros _. exists (skipn (Z.to_nat i) t). split; [apply Tl; lia|]. pose proof (Tl i ltac:(lia)) as T0. pose proof (Tl (i + 1 + 1) ltac:(lia)) as T2.
      rewrite Rc1, Rc, <- !app_assoc in T2. rewrite T0 in T2 at 1. apply app_inv_head in T2. exists (skipn (Z.to_nat (i + 1 + 1)) t). left. exact T2.
    - destruct (Z_lt_dec (i + 2) (n + 2)) as [Li|Li]; [|lia]. destruct (R_rd (i + 2)) as (c2 & Rd2 & Rc2); [lia|]. replace (o + i + 2) with (o + (i + 2)) by lia. rewrite Rd2. cbn [bind]. exists (c2 =? 45). split; [reflexivity|].
      intro E. replace c2 with 45 in * by lia. exists (skipn (Z.to_nat i) t). split; [apply Tl; lia|]. pose proof (Tl i ltac:(lia)) as T0. pose proof (Tl (i + 2 + 1) ltac:(lia)) as T2.
      assert (R2 : R (i + 2) = R i ++ [CR; c1]) by (replace (i + 2) with (i + 1 + 1) by lia; rewrite Rc1, Rc, <- app_assoc; reflexivity).
      rewrite Rc2, R2, <- !app_assoc in T2. rewrite T0 in T2 at 1. apply app_inv_head in T2. exists (skipn (Z.to_nat (i + 2 + 1)) t). right. exists c1. exact T2. }
  destruct Lk as (b & -> & Hb). cbn [bind].
  assert (Cb : forall k p' y, R k = R (p_mark p) ++ y -> 0 <= k <= n -> p_hdrs p' = p_hdrs p -> stored p' ->
     (k = n \/ exists u, t = R k ++ u /\ exists z, u = 13 :: 45 :: z \/ exists c, u = 13 :: c :: 45 :: z) ->
     exists b q, part_data_cb junk y p' = Ok (b, q) /\ stored q /\ (b = false -> barren q) /\ (p_hdrs q = p_hdrs p' \/ p_hdrs q = [])).
  { intros k p' y Ek Hk Eh St' Hu. destruct Rdy as [(x & Ex & Fx)|Bn].
    - apply (ready_cb y p' x (skipn (Z.to_nat k) t)); [|rewrite Eh; exact Fx| | |exact St'].
      + rewrite <- (firstn_skipn (Z.to_nat k) t) at 1. fold (R k). rewrite Ek, Ex, <- !app_assoc. reflexivity.
      + pose proof (f_equal (@len Z) Ek) as Q. rewrite R_len, Ex, !len_app in Q by lia. change (len CRLF) with 2 in Q. lia.
      + destruct Hu as [->|(u & Eu & Hu)].
        * left. pose proof (f_equal (@len Z) Ek) as Q. rewrite R_len, Ex, !len_app in Q by lia. change (len CRLF) with 2 in Q. lia.
        * right. replace (skipn (Z.to_nat k) t) with u; [exact Hu|]. rewrite Eu. unfold R. rewrite skipn_app.
          rewrite (skipn_all2 (firstn _ t)) by (rewrite firstn_length; lia). pose proof (R_len k ltac:(lia)) as Q. unfold R, len in Q. replace (Z.to_nat k - length (firstn (Z.to_nat k) t))%nat with 0%nat by lia. reflexivity.
    - assert (Bn' : barren p') by (unfold barren, multipart_get_data_ct, multipart_get_data_cte in *; rewrite Eh; exact Bn). exists false, p'. split; [now apply barren_cb|]. auto. }
  destruct b.
  - destruct (R_sub (p_mark p) i) as (d & -> & Ed); [lia|lia|]. cbn [bind]. apply emit_good.
    + apply (Cb i); auto. lia.
    + intros q Eq Sq Bq Hq. cbn [good]. split; [lia|]. split; [exact Sq|]. intros _. apply cb_state in Eq as (Q1 & _). fld.
      apply inv_intro; fld; cbn [pend]; try lia.
      * destruct Hq as [->| ->]; [lia|]. change (len []) with 0. pose proof (colons_nonneg (R (i + 1))). lia.
      * destruct Hq as [->| ->]; [exact Fl'|constructor].
      * unfold at_state. fld. exact Bq.
  - unfold is_last. destruct (Z.eqb_spec i (n - 1)) as [->|N3].
    + destruct (R_sub (p_mark p) (n - 1 + 1)) as (d & E & Ed); [lia|lia|]. replace (n - 1 - p_mark p + 1) with (n - 1 + 1 - p_mark p) by lia. rewrite E. cbn [bind].
      apply emit_good.
      * apply (Cb (n - 1 + 1)); auto; [lia|]. left. lia.
      * intros q Eq Sq Bq Hq. cbn [good]. split; [lia|]. split; [exact Sq|lia].
    + cbn [good]. split; [lia|]. split; [exact St|]. intros _. apply inv_intro; fld; rewrite ?Es; cbn [pend]; try lia; [exact Fl'|]. unfold at_state. rewrite Es. exact Rdy.
Qed.
Lemma turn_good : forall i p, 0 <= i < n -> Inv i p -> stored p -> good i (execute_turn junk m o bnd n i p).
Proof.
  intros i p Hi (Mk & Ch & Fl & As) St. destruct (R_rd i) as (c & Rd & Rc); [lia|]. unfold execute_turn. rewrite Rd. cbn [bind].
  assert (Mono : colons (R i) <= colons (R (i + 1))) by (apply colons_mono; lia).
  assert (Fl' : Forall (line_in (R (i + 1))) (p_hdrs p)) by (eapply lines_mono; [|exact Fl]; lia).
  unfold at_state in As. destruct (p_state p) eqn:Es; cbn [pend] in Ch.
  - apply start_good; fld; auto; lia.
  - apply start_good; auto; lia.
  - apply field_good; fld; auto; lia.
  - apply field_good; auto; lia.
  - destruct (Z.eqb_spec c LF) as [->|]; [|exact St]. cbn [good]. split; [lia|]. split; [exact St|]. intros _. destruct As as (x & Ex & Fx).
    destruct (p_seen_headers p); apply inv_intro; fld; cbn [pend]; try lia; try exact Fl'; unfold at_state; fld; [|exact I].
    exists x. split; [rewrite Rc, Ex, <- app_assoc; reflexivity|exact Fx].
  - destruct As as (x & sp & Ex & Fs). destruct (Z.eqb_spec c SP) as [->|].
    + cbn [good]. split; [lia|]. split; [exact St|]. intros _. apply inv_intro; rewrite ?Es; cbn [pend]; try lia; [exact Fl'|]. unfold at_state. rewrite Es.
      exists x, (sp ++ [32]). split; [rewrite Rc, Ex, <- !app_assoc; reflexivity|]. apply Forall_app. split; [exact Fs|]. now constructor.
    + apply value_good; fld; auto; try lia. exists x, sp. auto.
  - apply value_good; auto; lia.
  - destruct (Z.eqb_spec c LF) as [->|]; [|exact St]. destruct (R_rd (i + 1)) as (c1 & Rd1 & Rc1); [lia|]. rewrite <- Z.add_assoc, Rd1. cbn [bind].
    destruct (c1 =? 45); cbn [good].
    + split; [lia|]. split; [exact St|]. intro L3. apply inv_intro; fld; cbn [pend]; try lia.
      * pose proof (colons_mono i (i + 3)). lia.
      * eapply lines_mono; [|exact Fl]. lia.
      * unfold at_state; fld; exact I.
    + split; [lia|]. split; [exact St|]. intros _. apply inv_intro; fld; cbn [pend]; try lia; [exact Fl'|unfold at_state; fld; exact I].
  - apply data_good; fld; auto; lia.
  - apply data_good; auto; lia.
  - unfold at_almost_boundary. destruct (Z.eqb_spec c LF) as [->|].
    + cbn [good]. split; [lia|]. split; [exact St|]. intro L3. assert (0 <= colons (R (i + 3))) by apply colons_nonneg. pose proof (colons_mono i (i + 3)).
      apply inv_intro; fld; try lia; [destruct (p_payloads p =? 2); cbn [pend]; lia|eapply lines_mono; [|exact Fl]; lia|].
      unfold at_state; fld. destruct (p_payloads p =? 2); [|exact I]. split; [exact As|lia].
    + unfold emit_part. rewrite barren_cb by exact As. cbn [bind good]. split; [lia|]. split; [exact St|]. intros _. apply inv_intro; fld; cbn [pend]; try lia; [exact Fl|].
      unfold at_state; fld. right. exact As.
  - destruct As as [Bn Ix]. unfold at_boundary.
    rewrite rd_ok by (rewrite len_app; change (len [0]) with 1; lia). cbn [bind]. destruct (negb _).
    + unfold emit_part. rewrite barren_cb by exact Bn. cbn [bind good]. split; [lia|]. split; [exact St|]. intros _. apply inv_intro; fld; cbn [pend]; try lia; [exact Fl|].
      unfold at_state; fld. exact I.
    + unfold LOOKBEHIND. replace (70 <=? 2 + p_index p) with false by lia. cbv zeta. cbn [good]. split; [lia|]. fld.
      destruct (Z.eqb_spec (p_index p + 1) (len bnd)) as [Q|Q]; fld.
      * split; [exact St|]. intros _. apply inv_intro; fld; cbn [pend]; try lia; [exact Fl'|unfold at_state; fld; exact I].
      * split; [exact St|]. intros _. apply inv_intro; fld; rewrite ?Es; cbn [pend]; try lia; [exact Fl'|]. unfold at_state; fld. rewrite Es. split; [exact Bn|lia].
  - destruct (c =? 45); [|destruct (c =? CR)]; cbn [good]; try exact St; (split; [lia|]; split; [exact St|]; intros _; apply inv_intro; fld; cbn [pend]; try lia; [exact Fl'|unfold at_state; fld; exact I]).
  - destruct (c =? LF); cbn [good]; try exact St; (split; [lia|]; split; [exact St|]; intros _; apply inv_intro; fld; cbn [pend]; try lia; [exact Fl'|unfold at_state; fld; exact I]).
  - destruct (c =? 45); cbn [good]; try exact St; (split; [lia|]; split; [exact St|]; intros _; apply inv_intro; fld; cbn [pend]; try lia; [exact Fl'|unfold at_state; fld; exact I]).
  - cbn [good]. split; [lia|]. split; [exact St|]. intros _. apply inv_intro; rewrite ?Es; cbn [pend]; try lia; [exact Fl'|unfold at_state; rewrite Es; exact I].
Qed.
Lemma loop_good : forall fuel i p, 0 <= i -> (i < n -> Inv i p) -> stored p -> 2 * (n - i) + bonus p < Z.of_nat fuel ->
  exists k q, execute_loop junk fuel m o bnd n i p = Ok (k, q) /\ stored q.
Proof.
  induction fuel as [|fuel IH]; intros i p Hi Iv St Fu.
  - unfold bonus in Fu. cbn [execute_loop]. replace (i <? n) with false by (destruct (p_state p); lia). exists n, p. auto.
  - cbn [execute_loop]. destruct (Z.ltb_spec i n) as [L|L]; [|exists n, p; auto].
    pose proof (turn_good i p ltac:(lia) (Iv L) St) as G. destruct (execute_turn junk m o bnd n i p) as [tn|] eqn:Et; [|destruct G]. cbn [bind].
    destruct tn as [k q|i' q]; cbn [good] in G; [exists k, q; auto|]. destruct G as (Li & Sq & Iq). apply turn_measure in Et as [Ms _]. apply IH; auto; lia.
Qed.
End Any.
