(** C16, C28, C29, C58: CSR attributes.  Read with Spec/Der.v.
    [G] is OpenSSL's ASN1_get_object, [bio] its base64 reader, [oid_text] its
    OID printer; the first two are constrained by the contracts [asn1_reader]
    and [b64_bio], the printer is arbitrary. *)
From Coq Require Import String ZArith List Bool Lia ZifyBool ZifyNat.
From Verif Require Import Base Spec.Base64 Spec.Server Spec.Der Model.EstErr Model.CLib Model.Codec Model.HttpServer Model.AuthHdr Model.Server Model.CsrAttrs
  Proofs.Codec Proofs.Der Proofs.CsrAttrs Properties.Server.
Import ListNotations.
Open Scope Z_scope.

Section S.
Variable G : bytes -> option header.
Hypothesis HG : asn1_reader G.
Variable bio : bool -> bytes -> Z -> bytes.
Hypothesis HB : b64_bio bio.
Local Notation parse := (est_asn1_parse_attributes G bio).
Local Notation add := (est_add_challengePassword G bio).
Local Notation init := (est_server_init_csrattrs G bio).
Local Notation decode s := (est_base64_decode bio false s%list (2 * len s%list)).
Definition text_of (s d : bytes) : Prop := s = b64_encode d \/ s = b64_wrap (b64_encode d).

(** ** C29 *)
(** What is accepted decodes to data in which every element, with its length,
    fits in what is left, of the right size; challengePassword is reported
    exactly if it is there.  Checking fails to terminate properly only for a
    text of blanks. *)
Theorem C29_partial : forall s, (parse s = UB <-> 4 <= len s /\ (forall c, In c s -> isspace c = true))
  /\ forall pop, parse s = Ok (EST_ERR_NONE, pop) ->
     exists d os, decode s = Ok (len d, d) /\ reads d os
       /\ (pop = true <-> In challengePassword os) /\ 2 <= len d <= (if pop then 1035 else 1024).
Proof. intro s. split; [exact (parse_safe G HG bio HB s)|exact (parse_sound G HG bio HB s)]. Qed.
(** Well-formed attributes within the limits are accepted. *)
Theorem C29_complete : forall ts s, Forall plain ts -> ts <> [] -> text_of s (ders ts) ->
  (In challengePassword (concat (map oids ts)) -> len (ders ts) <= 1035 -> parse s = Ok (EST_ERR_NONE, true))
  /\ (~ In challengePassword (concat (map oids ts)) -> len (ders ts) <= 1024 -> parse s = Ok (EST_ERR_NONE, false)).
Proof.
  intros ts s P N T. pose proof (parse_complete G HG bio HB ts s P N) as C. split; intros I L.
  - assert (E : has_pop (concat (map oids ts)) = true) by now apply has_pop_In. rewrite E in C. auto.
  - assert (E : has_pop (concat (map oids ts)) = false) by (destruct (has_pop _) eqn:Q; [apply has_pop_In in Q; contradiction|reflexivity]).
    rewrite E in C. auto.
Qed.
(** The limits are met exactly. *)
Theorem C29_limits : forall ts s, Forall plain ts -> ts <> [] -> len (ders ts) < 2 ^ 31 -> text_of s (ders ts) ->
  ((exists pop, parse s = Ok (EST_ERR_NONE, pop))
   <-> len (ders ts) <= 1024 \/ (In challengePassword (concat (map oids ts)) /\ len (ders ts) <= 1035)).
Proof.
  intros ts s P N L T. split.
  - intros [pop Q]. destruct (parse_sound G HG bio HB s pop Q) as (d & os & E & _ & I & B).
    destruct (decode_text bio HB s (ders ts)) as [E2 _]; auto.
    { now apply plains_bytes. } { apply ders_nonempty; assumption. }
    rewrite (Z.mul_comm 2) in E. rewrite E2 in E. injection E as _ ->.
    destruct pop; [|left; lia]. destruct (Z.le_gt_cases (len d) 1024); [now left|right]. split; [|lia].
    destruct (has_pop (concat (map oids ts))) eqn:Hp; [now apply has_pop_In|].
    exfalso. pose proof (parse_pop G HG bio HB ts s true P N L T Q). congruence.
  - intros [Q|[I Q]].
    + destruct (has_pop (concat (map oids ts))) eqn:Hp; [exists true|exists false]; rewrite <- Hp;
        apply (parse_complete G HG bio HB ts s P N); auto; rewrite Hp; lia.
    + exists true. now apply (C29_complete ts s P N T).
Qed.

(** ** C28 *)
(** Adding challengePassword to the attribute list [items] gives the list
    [items] followed by challengePassword, and that is accepted again. *)
Theorem C28 : forall items s, Forall plain items -> text_of s (der (Node 0 16 items)) ->
  parse s = Ok (EST_ERR_NONE, false) ->
  let new := b64_encode (der (Node 0 16 (items ++ [Prim 0 6 challengePassword]))) in
  add s = Ok (EST_ERR_NONE, new) /\ parse new = Ok (EST_ERR_NONE, true).
Proof.
  intros items s P T Q new.
  assert (PN : Forall plain [Node 0 16 items]) by (constructor; [apply plain_node; auto|constructor]).
  assert (ED : ders [Node 0 16 items] = der (Node 0 16 items)) by apply app_nil_r.
  destruct (parse_sound G HG bio HB s false Q) as (d & os & E & _ & _ & B).
  destruct (decode_text bio HB s (der (Node 0 16 items))) as [E2 _]; auto.
  { rewrite <- ED. now apply plains_bytes. } { rewrite <- ED. apply ders_nonempty; [exact PN|discriminate]. }
  rewrite (Z.mul_comm 2), E2 in E. assert (Ed : d = der (Node 0 16 items)) by (injection E; auto). subst d. clear E.
  assert (L : len (der (Node 0 16 items)) < 2 ^ 15) by (cbv iota in B; lia).
  split; [exact (add_tree G HG bio HB items s P L T)|].
  set (items' := items ++ [Prim 0 6 challengePassword]).
  assert (PI : Forall plain items').
  { apply Forall_app. split; [exact P|]. repeat constructor; cbn; try lia. intros _. apply chpw_valid. }
  assert (PN' : Forall plain [Node 0 16 items']) by (constructor; [apply plain_node; auto|constructor]).
  assert (ED' : ders [Node 0 16 items'] = der (Node 0 16 items')) by apply app_nil_r.
  assert (HP : In challengePassword (concat (map oids [Node 0 16 items']))).
  { cbn [map concat oids]. rewrite app_nil_r. unfold items'. rewrite map_app, concat_app. apply in_or_app. right. now left. }
  apply (C29_complete [Node 0 16 items'] new PN'); [discriminate|left; now rewrite ED'|exact HP|].
  rewrite ED'. unfold items'. cbn [der] in B |- *. fold (ders items) in B.
  change (concat (map der (items ++ [Prim 0 6 challengePassword]))) with (ders (items ++ [Prim 0 6 challengePassword])).
  rewrite ders_app, !len_app. rewrite len_app in B. change (len (ders [Prim 0 6 challengePassword])) with 11.
  pose proof (len_nonneg _ (ders items)) as Ln. pose proof (der_header_len 0 true 16 (len (ders items))) as Lh.
  rewrite der_header_len_val by lia. rewrite der_header_len_val in B by lia. cbv iota in B. clear Lh L.
  repeat match goal with H : context [if ?c then _ else _] |- _ => destruct c eqn:? end;
    repeat match goal with |- context [if ?c then _ else _] => destruct c eqn:? end; lia.
Qed.
(** Every accepted list: it is either refused because it is no SEQUENCE, or the
    new list is a SEQUENCE of the right length of the old content and
    challengePassword. *)
Theorem C28_accepted : forall s, parse s = Ok (EST_ERR_NONE, false) ->
  exists d h, decode s = Ok (len d, d) /\ starts_with d h
    /\ (h_tag h <> 16 -> add s = Ok (EST_ERR_BAD_ASN1_HEX, []))
    /\ (h_tag h = 16 -> let content := skipn (Z.to_nat (h_octets h)) d in
          let new := der_header 0 true 16 (len content + 11) ++ content ++ der (Prim 0 6 challengePassword) in
          add s = Ok (EST_ERR_NONE, b64_encode new) /\ (len new <= 1035 -> parse (b64_encode new) = Ok (EST_ERR_NONE, true))).
Proof. exact (add_accepted G HG bio HB). Qed.
(** The configuration call with proof of possession on, and off. *)
Theorem C28_configured : forall items s, Forall plain items -> text_of s (der (Node 0 16 items)) ->
  len (der (Node 0 16 items)) <= 1024 ->
  init false (Some s) = Ok (EST_ERR_NONE, Some s)
  /\ init true (Some s) = Ok (EST_ERR_NONE, Some (if has_pop (concat (map oids items)) then s
                             else b64_encode (der (Node 0 16 (items ++ [Prim 0 6 challengePassword]))))).
Proof.
  intros items s P T L.
  assert (PN : Forall plain [Node 0 16 items]) by (constructor; [apply plain_node; auto|constructor]).
  assert (ED : ders [Node 0 16 items] = der (Node 0 16 items)) by apply app_nil_r.
  destruct (decode_text bio HB s (der (Node 0 16 items))) as [_ L4]; auto.
  { rewrite <- ED. now apply plains_bytes. } { rewrite <- ED. apply ders_nonempty; [exact PN|discriminate]. }
  assert (E : parse s = Ok (EST_ERR_NONE, has_pop (concat (map oids items)))).
  { pose proof (parse_complete G HG bio HB [Node 0 16 items] s PN) as Q. rewrite ED in Q. cbn [map concat oids] in Q. rewrite app_nil_r in Q.
    apply Q; [discriminate|destruct (has_pop _); lia|exact T]. }
  unfold est_server_init_csrattrs. replace (len s <? 4) with false by lia. rewrite E. cbn [bind andb]. split; [reflexivity|].
  destruct (has_pop (concat (map oids items))); cbn [negb]; [reflexivity|].
  destruct (C28 items s P T E) as [-> _]. reflexivity.
Qed.

(** ** The helpers meet what the server properties assume of them *)
Theorem attributes_sane : attrs_sane parse add.
Proof.
  split; [|split].
  - intros b er b2 H. apply (add_errors G bio HB b er b2 H).
  - exact (parse_errors G bio).
  - intros b er b2 H. apply (add_errors G bio HB b er b2 H).
Qed.
Theorem add_after_parse : forall s p, parse s = Ok (EST_ERR_NONE, p) -> add s <> UB.
Proof. exact (add_safe G bio HB). Qed.

(** ** C16 *)
Variable oid_text : bytes -> bytes.
Local Notation check := (all_attrs_check G bio oid_text).
(** If the check passes, every attribute of the list, challengePassword aside,
    occurs in the CSR (up to OIDs whose printed forms agree in 127 characters). *)
Theorem C16_check : forall s body, check (Some (Some s)) body = Ok EST_ERR_NONE ->
  exists ds db os, decode s = Ok (len ds, ds) /\ decode body = Ok (len db, db) /\ reads ds os
    /\ forall c, In c os -> c <> challengePassword -> exists c', contains_oid db c' /\ firstn 127 (oid_text c') = firstn 127 (oid_text c).
Proof. exact (check_sound G HG bio HB oid_text). Qed.
(** For well-formed attributes and requests the check passes exactly if every
    attribute is in the CSR. *)
Theorem C16_exact : forall ats cts s body, Forall plain ats -> ats <> [] -> len (ders ats) <= 1024 ->
  Forall ordinary cts -> cts <> [] -> len (ders cts) < 2 ^ 31 -> text_of s (ders ats) -> text_of body (ders cts) ->
  (forall a b, firstn 127 (oid_text a) = firstn 127 (oid_text b) -> a = b) ->
  (check (Some (Some s)) body = Ok EST_ERR_NONE
     <-> forall c, In c (concat (map oids ats)) -> c = challengePassword \/ In c (concat (map oids cts)))
  /\ (check (Some (Some s)) body = Ok EST_ERR_NONE \/ check (Some (Some s)) body = Ok EST_ERR_CSR_ATTR_MISSING)
  /\ check None body = Ok EST_ERR_NONE.
Proof.
  intros ats cts s body P N L Pc Nc Lc Ts Tb Inj.
  rewrite (check_exact G HG bio HB oid_text ats cts s body) by auto.
  rewrite <- (named_In oid_text _ _ Inj).
  split; [destruct (forallb _ _); split; congruence|]. split; [destruct (forallb _ _); auto|].
  unfold all_attrs_check. now rewrite (build_complete G HG bio HB cts body Pc Nc Lc Tb).
Qed.
End S.

(** ** C16 for the server *)
Section Server.
Context {cert csr key E : Type}.
Variable O : @ossl cert csr key.
Variable C : @config cert.
Variable A : @app cert key E.
Variable parse_uri : bytes -> res (est_error * option Model.Uri.operation * option bytes).
Variable G : bytes -> option header.
Hypothesis HG : asn1_reader G.
Hypothesis HB : b64_bio (o_bio O).
Variable oid_text : bytes -> bytes.
Variable keep : Z -> bool.
Local Notation request := (est_http_request O C A parse_uri (est_asn1_parse_attributes G (o_bio O))
  (est_add_challengePassword G (o_bio O)) (all_attrs_check G (o_bio O) oid_text) keep).
Local Notation decode s := (est_base64_decode (o_bio O) false s%list (2 * len s%list)).

(** The CA is asked only about a CSR that parsed, is signed with its own key,
    and, under enforcement, has the attributes of the list in force. *)
Theorem C16_partial : forall t method uri body ct authz s e r pre k b uid peer path rv crt kt post,
  request t method uri body ct authz s = (e, r) -> e = pre ++ EvCA k b uid peer path rv crt kt :: post ->
  exists rq, csr_of_request O pre k body b rq /\ good_csr O rq
    /\ (c_enforce C = true -> (a_csrattrs A = None /\ c_csrattrs C = None)
        \/ exists attrs ds db os,
             ((a_csrattrs A = None /\ c_csrattrs C = Some attrs) \/ In (EvCsrattrs None (Some attrs)) pre)
             /\ decode attrs = Ok (len ds, ds) /\ reads ds os /\ decode b = Ok (len db, db)
             /\ forall c, In c os -> c <> challengePassword ->
                exists c', contains_oid db c' /\ firstn 127 (oid_text c') = firstn 127 (oid_text c)).
Proof.
  intros * H Eq. destruct (C16_signed O C A parse_uri _ _ _ keep _ _ _ _ _ _ _ _ _ _ _ _ _ _ _ _ _ _ _ H Eq) as (rq & Q1 & Q2 & Q3).
  exists rq. split; [exact Q1|]. split; [exact Q2|]. intro En. destruct (Q3 En) as [N|[(d & N1 & N2 & Q)|(d & I & Q)]]; [now left|right..].
  - apply (check_sound G HG (o_bio O) HB oid_text) in Q as (ds & db & os & E1 & E2 & R & F). exists d, ds, db, os. auto.
  - destruct d as [d|].
    + apply (check_sound G HG (o_bio O) HB oid_text) in Q as (ds & db & os & E1 & E2 & R & F). exists d, ds, db, os. auto.
    + unfold all_attrs_check in Q. destruct (est_server_build_csr_oid_list G (o_bio O) b) as [[er l]|]; cbn [bind] in Q; [|discriminate].
      destruct er; discriminate.
Qed.
End Server.

(** * The claims at work, and where they fail *)
Definition OID_email : tree := Prim 0 6 [42; 134; 72; 134; 247; 13; 1; 9; 1].
Definition two_attrs : list tree := [OID_email; Node 0 16 [Prim 0 6 [85; 4; 3]; Node 0 17 [Prim 0 12 (str "name")]]].
Definition attrs_b64 := b64_encode (der (Node 0 16 two_attrs)).
Lemma valid_email : valid_oid [42; 134; 72; 134; 247; 13; 1; 9; 1].
Proof. apply d2i_valid; [unfold all_bytes, is_byte; repeat constructor; lia|reflexivity]. Qed.
Lemma valid_cn : valid_oid [85; 4; 3].
Proof. apply d2i_valid; [unfold all_bytes, is_byte; repeat constructor; lia|reflexivity]. Qed.
Lemma two_attrs_plain : Forall plain two_attrs.
Proof.
  repeat constructor; cbn; try lia; try (unfold is_byte; lia); intros; try discriminate; try exact valid_email; exact valid_cn.
Qed.
Example C28_case : Forall plain two_attrs /\ text_of attrs_b64 (der (Node 0 16 two_attrs))
  /\ est_asn1_parse_attributes simple_reader rfc_bio attrs_b64 = Ok (EST_ERR_NONE, false)
  /\ est_add_challengePassword simple_reader rfc_bio attrs_b64
     = Ok (EST_ERR_NONE, b64_encode (der (Node 0 16 (two_attrs ++ [Prim 0 6 challengePassword]))))
  /\ asn1_reader simple_reader /\ b64_bio rfc_bio.
Proof.
  split; [exact two_attrs_plain|]. split; [now left|]. split; [vm_compute; reflexivity|]. split; [vm_compute; reflexivity|].
  split; [exact simple_reader_ok|exact rfc_bio_ok].
Qed.

(** C29 as stated is false: a NULL is accepted, and a SEQUENCE that claims to
    be empty but is followed by an OBJECT IDENTIFIER; no SEQUENCE, no added
    attribute; blanks overrun the decoder. *)
Theorem C29_refuted :
  est_asn1_parse_attributes simple_reader rfc_bio (b64_encode [5; 0]) = Ok (EST_ERR_NONE, false)
  /\ est_asn1_parse_attributes simple_reader rfc_bio (b64_encode [48; 0; 6; 3; 85; 4; 3]) = Ok (EST_ERR_NONE, false)
  /\ est_add_challengePassword simple_reader rfc_bio (b64_encode [5; 0]) = Ok (EST_ERR_BAD_ASN1_HEX, [])
  /\ est_server_init_csrattrs simple_reader rfc_bio true (Some (b64_encode [5; 0])) = Ok (EST_ERR_INVALID_PARAMETERS, None)
  /\ est_asn1_parse_attributes simple_reader rfc_bio (str "    ") = UB.
Proof. repeat split; vm_compute; reflexivity. Qed.
(** With an indefinite length header there is room for 1022 octets of content;
    the list accepted then becomes too long. *)
Theorem C28_size_refuted : exists s new, est_asn1_parse_attributes simple_reader rfc_bio s = Ok (EST_ERR_NONE, false)
  /\ est_add_challengePassword simple_reader rfc_bio s = Ok (EST_ERR_NONE, new)
  /\ est_asn1_parse_attributes simple_reader rfc_bio new = Ok (EST_ERR_BAD_ASN1_HEX_TOO_LONG, true).
Proof.
  exists (b64_encode ([48; 128] ++ [4; 130; 3; 250] ++ repeat 65 1018)). eexists.
  split; [vm_compute; reflexivity|]. split; [vm_compute; reflexivity|]. vm_compute. reflexivity.
Qed.

(** ** C58 *)
(** Attributes the server accepted and stores can be satisfied: with the stored
    form within 1024 octets, a CSR with all of them passes. *)
Theorem C58_partial : forall G bio oid_text items s stored cts body, asn1_reader G -> b64_bio bio ->
  Forall plain items -> text_of s (der (Node 0 16 items)) -> len (der (Node 0 16 items)) <= 1013 ->
  est_server_init_csrattrs G bio true (Some s) = Ok (EST_ERR_NONE, Some stored) ->
  Forall ordinary cts -> cts <> [] -> len (ders cts) < 2 ^ 31 -> text_of body (ders cts) ->
  (forall c, In c (concat (map oids items)) -> In c (concat (map oids cts))) ->
  all_attrs_check G bio oid_text (Some (Some stored)) body = Ok EST_ERR_NONE.
Proof.
  intros G bio oid_text items s stored cts body HG HB P T L I Pc Nc Lc Tb In_.
  destruct (C28_configured G HG bio HB items s P T ltac:(lia)) as [_ E]. rewrite E in I. injection I as <-.
  assert (K : forall its t, Forall plain its -> len (der (Node 0 16 its)) <= 1024 -> text_of t (der (Node 0 16 its)) ->
     (forall c, In c (concat (map oids its)) -> c = challengePassword \/ In c (concat (map oids cts))) ->
     all_attrs_check G bio oid_text (Some (Some t)) body = Ok EST_ERR_NONE).
  { intros its t Pi Li Ti Hi.
    rewrite (check_exact G HG bio HB oid_text [Node 0 16 its] cts t body); auto.
    - replace (forallb _ _) with true; [reflexivity|]. symmetry. apply forallb_forall. intros c Ic.
      cbn [map concat oids] in Ic. rewrite app_nil_r in Ic. unfold named. destruct (Hi _ Ic) as [->|Q].
      + now rewrite (proj2 (beq_eq _ _) eq_refl).
      + apply orb_true_intro. right. apply existsb_exists. exists c. split; [exact Q|]. now apply beq_eq.
    - constructor; [apply plain_node; auto|constructor].
    - discriminate.
    - unfold ders. cbn [map concat]. now rewrite app_nil_r.
    - unfold ders. cbn [map concat]. now rewrite app_nil_r. }
  destruct (has_pop (concat (map oids items))).
  - apply (K items); auto; lia.
  - apply (K (items ++ [Prim 0 6 challengePassword])); [| |now left|].
    + apply Forall_app. split; [exact P|]. repeat constructor; cbn; try lia. intros _. apply chpw_valid.
    + cbn [der] in L |- *. fold (ders items) in L. fold (ders (items ++ [Prim 0 6 challengePassword])). rewrite ders_app, !len_app. rewrite len_app in L.
      change (len (ders [Prim 0 6 challengePassword])) with 11. pose proof (len_nonneg _ (ders items)) as Ln.
      pose proof (der_header_len 0 true 16 (len (ders items))) as Lh.
      rewrite der_header_len_val by lia. rewrite der_header_len_val in L by lia. clear Lh.
      repeat match goal with H : context [if ?c then _ else _] |- _ => destruct c eqn:? end;
        repeat match goal with |- context [if ?c then _ else _] => destruct c eqn:? end; lia.
    + intros c Ic. rewrite map_app, concat_app in Ic. apply in_app_or in Ic as [Ic|[<-|[]]]; auto.
Qed.
Definition big_attrs : list tree := [Prim 0 4 (repeat 65 1006)].
(** Attributes of 1014 octets are accepted, but no CSR satisfies them. *)
Theorem C58_refuted : forall G bio, asn1_reader G -> b64_bio bio -> exists s stored,
  est_server_init_csrattrs G bio true (Some s) = Ok (EST_ERR_NONE, Some stored)
  /\ forall oid_text body, all_attrs_check G bio oid_text (Some (Some stored)) body <> Ok EST_ERR_NONE.
Proof.
  intros G bio HG HB.
  assert (P : Forall plain big_attrs).
  { constructor; [|constructor]. cbn [plain]. repeat split; try discriminate; try lia.
    apply Forall_forall. intros x I. apply repeat_spec in I. unfold is_byte; lia. }
  destruct (C28_configured G HG bio HB big_attrs (b64_encode (der (Node 0 16 big_attrs))) P) as [_ E]; [now left|vm_compute; discriminate|].
  change (has_pop (concat (map oids big_attrs))) with false in E. cbv iota in E.
  eexists _, _. split; [exact E|]. intros oid_text body.
  apply (check_too_long G bio oid_text _ (der (Node 0 16 (big_attrs ++ [Prim 0 6 challengePassword])))); [|reflexivity].
  apply (decode_text bio HB).
  - apply plain_bytes. apply plain_node. split; [reflexivity|]. split; [now left|]. apply Forall_app. split; [exact P|].
    repeat constructor; cbn; try lia. intros _. apply chpw_valid.
  - discriminate.
  - now left.
Qed.

(** ** C16: where it fails *)
(** Printed OIDs are compared up to 127 characters: with a decimal printer, the
    CSR passes with a different OID. *)
Definition dotted (c : bytes) : bytes := concat (map (fun d => 48 + d :: str ".") c).
Definition long_oid (last : Z) : bytes := repeat 1 64 ++ [last].
Definition attr_csr (c : bytes) : bytes := b64_encode (der (Node 0 16 [Prim 0 6 c])).
Theorem C16_refuted : ~ In (long_oid 2) (oids (Node 0 16 [Prim 0 6 (long_oid 3)])) /\ dotted (long_oid 2) <> dotted (long_oid 3)
  /\ all_attrs_check simple_reader rfc_bio dotted (Some (Some (attr_csr (long_oid 2)))) (attr_csr (long_oid 3)) = Ok EST_ERR_NONE.
Proof.
  split; [|split].
  - intros [Q|[]]. vm_compute in Q. discriminate.
  - vm_compute. discriminate.
  - vm_compute. reflexivity.
Qed.
(** An end-of-contents marker inside a structure of definite length makes the
    collection of the CSR's OIDs read beyond it. *)
Theorem C16_overread_refuted : est_server_build_csr_oid_list simple_reader rfc_bio (b64_encode [48; 4; 0; 0; 5; 0]) = UB.
Proof. vm_compute. reflexivity. Qed.
(** The check at work: an attribute that is there, and one that is not. *)
Example C16_case :
  all_attrs_check simple_reader rfc_bio dotted (Some (Some attrs_b64)) (b64_encode (der (Node 0 16 (two_attrs ++ [Node 2 0 [Prim 0 6 [85; 4; 5]]])))) = Ok EST_ERR_NONE
  /\ all_attrs_check simple_reader rfc_bio dotted (Some (Some attrs_b64)) (attr_csr [85; 4; 3]) = Ok EST_ERR_CSR_ATTR_MISSING.
Proof. split; vm_compute; reflexivity. Qed.

Print Assumptions C16_check.
Print Assumptions C16_exact.
Print Assumptions C16_partial.
Print Assumptions C16_refuted.
Print Assumptions C16_overread_refuted.
Print Assumptions C28.
Print Assumptions C28_accepted.
Print Assumptions C28_configured.
Print Assumptions C28_size_refuted.
Print Assumptions C29_partial.
Print Assumptions C29_complete.
Print Assumptions C29_limits.
Print Assumptions C29_refuted.
Print Assumptions C58_partial.
Print Assumptions C58_refuted.
Print Assumptions attributes_sane.
Print Assumptions add_after_parse.
