(** C92: the trust anchors of a context are those of the file it was given. *)
From Coq Require Import ZArith List Bool Lia.
From Verif Require Import Base Spec.SafeC Spec.TrustStore Model.EstErr Model.SafeC Model.TrustStore Proofs.SafeC Proofs.TrustStore.
Import ListNotations.
Open Scope Z_scope.

(** [block] is the memory at ca_chain, [n] is ca_chain_len; [text] is what is
    found there, up to a NUL or 2000000 characters; [file] is what OpenSSL reads
    in it.  A context is made exactly if the length given is right and there is a
    certificate; what it trusts is then what the file contains, as far as
    OpenSSL's store takes it.  Subjects of 255 or more printed characters, in the
    third conclusion, are the exception. *)
Theorem C92_partial : forall X server block n text file,
  o_store_new X = true -> offers block 2000000 text -> o_read X text = Some file ->
  (~ long_subject file ->
     exists r, est_init_trust X server (Some block) n = Ok r
       /\ (r <> None <-> len text = n /\ has_certificate file)
       /\ (forall st, r = Some st -> forall x, In x st <-> contains file x /\ o_takes X x = true))
  /\ (len text <> n -> est_init_trust X server (Some block) n = Ok None)
  /\ (est_init_trust X server (Some block) n = UB <-> len text = n /\ long_subject file).
Proof.
  intros X sv block n text file Sn O R.
  assert (SL : strnlen_s (Some block) EST_CA_MAX = Ok (len text)).
  { unfold strnlen_s. pose proof O as O'. change 2000000 with EST_CA_MAX in O'. rewrite <- (Z2Nat.id EST_CA_MAX) in O' at 1 by (unfold EST_CA_MAX; lia). apply text_upto_spec in O'. rewrite O'. reflexivity. }
  assert (F : firstn (Z.to_nat (len text)) block = text).
  { unfold len. rewrite Nat2Z.id. destruct O as [_ [[_ [b ->]]|[_ [b ->]]]]; rewrite firstn_app, firstn_all, Nat.sub_diag; cbn; apply app_nil_r. }
  unfold est_init_trust. rewrite SL. cbn [bind]. destruct (len text =? n) eqn:E.
  - apply Z.eqb_eq in E. subst n. rewrite F. unfold est_load_trusted_certs. rewrite Sn. cbn [negb]. unfold ossl_init_cert_store, ossl_init_cert_store_from_raw. rewrite R.
    destruct (load_loop_spec X file [] 0 ltac:(lia)) as [[L U]|[NL (k & st & Ek & Kn & Kc & Kx)]].
    + rewrite U. cbn [bind]. split; [tauto|]. split; [congruence|]. tauto.
    + rewrite Ek. cbn [bind]. split; [|split; [congruence|split; [discriminate|tauto]]]. intros _. eexists. split; [reflexivity|].
      assert (Kx' : forall x, In x st <-> contains file x /\ o_takes X x = true) by (intro x; rewrite Kx; cbn; tauto).
      destruct (k =? 0) eqn:K0; cbn.
      * split; [|discriminate]. split; [congruence|]. intros [_ H]. apply Kc in H. lia.
      * split; [split; [intros _; split; [reflexivity|apply Kc; lia]|discriminate]|]. intros st' H. injection H as <-. exact Kx'.
  - apply Z.eqb_neq in E. split; [|split; [reflexivity|split; [discriminate|tauto]]]. intros _. exists None. split; [reflexivity|]. split; [|discriminate]. split; [congruence|tauto].
Qed.
Print Assumptions C92_partial.

(** A text OpenSSL cannot read, or no memory for the store: no context.  Without
    a text a server or proxy is not made; a client is, and trusts nobody. *)
Theorem C92_nothing : forall X server block n text,
  (offers block 2000000 text -> o_read X text = None \/ o_store_new X = false -> est_init_trust X server (Some block) n = Ok None)
  /\ est_init_trust X true None n = Ok None
  /\ (o_store_new X = true -> est_init_trust X false None n = Ok (Some []))
  /\ (forall certs, o_store_new X = false -> est_load_trusted_certs X certs = Ok (EST_ERR_LOAD_TRUST_CERTS, None))
  /\ (o_store_new X = true -> o_read X text = None -> est_load_trusted_certs X (Some text) = Ok (EST_ERR_NO_CERTS_FOUND, Some [])).
Proof.
  intros X sv block n text. split; [|split; [reflexivity|split; [|split]]].
  - intros O C. destruct (o_store_new X) eqn:Sn.
    + destruct C as [R|C]; [|discriminate C].
      pose proof O as O'. change 2000000 with EST_CA_MAX in O'. rewrite <- (Z2Nat.id EST_CA_MAX) in O' at 1 by (unfold EST_CA_MAX; lia). apply text_upto_spec in O'.
      assert (F : firstn (Z.to_nat (len text)) block = text).
      { unfold len. rewrite Nat2Z.id. destruct O as [_ [[_ [b ->]]|[_ [b ->]]]]; rewrite firstn_app, firstn_all, Nat.sub_diag; cbn; apply app_nil_r. }
      unfold est_init_trust, strnlen_s. rewrite O'. cbn [bind]. destruct (len text =? n) eqn:E; [|reflexivity]. apply Z.eqb_eq in E. subst n. rewrite F.
      unfold est_load_trusted_certs, ossl_init_cert_store, ossl_init_cert_store_from_raw. rewrite Sn, R. reflexivity.
    + pose proof O as O'. change 2000000 with EST_CA_MAX in O'. rewrite <- (Z2Nat.id EST_CA_MAX) in O' at 1 by (unfold EST_CA_MAX; lia). apply text_upto_spec in O'.
      unfold est_init_trust, strnlen_s. rewrite O'. cbn [bind]. destruct (len text =? n); [|reflexivity]. unfold est_load_trusted_certs. now rewrite Sn.
  - intro Sn. unfold est_init_trust, est_load_trusted_certs. now rewrite Sn.
  - intros c Sn. unfold est_load_trusted_certs. now rewrite Sn.
  - intros Sn R. unfold est_load_trusted_certs, ossl_init_cert_store, ossl_init_cert_store_from_raw. now rewrite Sn, R.
Qed.
Print Assumptions C92_nothing.

(** Loading certificates after the context is made (est_client_provision_cert):
    the error and the store, also when it fails. *)
Theorem C92_reload : forall X text file, o_store_new X = true -> o_read X text = Some file -> ~ long_subject file ->
  exists e st, est_load_trusted_certs X (Some text) = Ok (e, Some st)
    /\ (e = EST_ERR_NONE <-> has_certificate file) /\ (e = EST_ERR_NO_CERTS_FOUND <-> ~ has_certificate file)
    /\ forall x, In x st <-> contains file x /\ o_takes X x = true.
Proof.
  intros X text file Sn R NL. unfold est_load_trusted_certs, ossl_init_cert_store, ossl_init_cert_store_from_raw. rewrite Sn, R. cbn [negb].
  destruct (load_loop_spec X file [] 0 ltac:(lia)) as [[L _]|[_ (k & st & Ek & Kn & Kc & Kx)]]; [tauto|]. rewrite Ek. cbn [bind].
  eexists _, st. split; [reflexivity|]. destruct (k =? 0) eqn:K0.
  - split; [|split]; [split; [discriminate|intro H; apply Kc in H; lia]|split; [intros _ H; apply Kc in H; lia|reflexivity]|]. intro x. rewrite Kx. cbn. tauto.
  - split; [|split]; [split; [intros _; apply Kc; lia|reflexivity]|split; [discriminate|intro H; exfalso; apply H; apply Kc; lia]|]. intro x. rewrite Kx. cbn. tauto.
Qed.
Print Assumptions C92_reload.

(** A certificate that OpenSSL's store does not take counts as loaded: a context
    is made that trusts nobody. And a subject of 255 characters is written behind
    its block. *)
Definition one (s : bytes) : info := {| i_x509 := Some {| t_subject := s; t_der := [48; 1] |}; i_crl := None |}.
Definition reads (file : list info) (takes : bool) : ossl := {| o_read := fun _ => Some file; o_takes := fun _ => takes; o_store_new := true |}.
Theorem C92_refuted :
  (exists X block n text file, offers block 2000000 text /\ o_read X text = Some file /\ has_certificate file
     /\ est_init_trust X true (Some block) n = Ok (Some []))
  /\ (exists X block n text file, offers block 2000000 text /\ o_read X text = Some file /\ has_certificate file
     /\ est_init_trust X true (Some block) n = UB).
Proof.
  assert (O : offers [45; 45; 0] 2000000 [45; 45]) by (split; [cbn; lia|right; split; [reflexivity|exists []; reflexivity]]).
  assert (H : forall s, has_certificate [one s]) by (intro s; exists [48; 1], (one s); split; [now left|]; eexists; split; reflexivity).
  split.
  - exists (reads [one [67; 78; 61; 97]] false), [45; 45; 0], 2, [45; 45], [one [67; 78; 61; 97]]. split; [exact O|]. split; [reflexivity|]. split; [apply H|].
    destruct (C92_partial (reads [one [67; 78; 61; 97]] false) true [45; 45; 0] 2 [45; 45] [one [67; 78; 61; 97]] eq_refl O eq_refl) as [A _].
    destruct A as (r & E & N & I); [intros (i & c & [<-|[]] & Q & L); injection Q as <-; vm_compute in L; congruence|]. rewrite E.
    destruct r as [st|]; [|exfalso; apply (proj2 N); [split; [reflexivity|apply H]|reflexivity]]. destruct st as [|x st]; [reflexivity|]. destruct (proj1 (I _ eq_refl x)) as [_ T]; [now left|]. discriminate T.
  - exists (reads [one (repeat 65 255)] true), [45; 45; 0], 2, [45; 45], [one (repeat 65 255)]. split; [exact O|]. split; [reflexivity|]. split; [apply H|].
    apply (C92_partial (reads [one (repeat 65 255)] true) true [45; 45; 0] 2 [45; 45] [one (repeat 65 255)] eq_refl O eq_refl). split; [reflexivity|].
    exists (one (repeat 65 255)). eexists. split; [now left|]. split; [reflexivity|]. vm_compute. discriminate.
Qed.
Print Assumptions C92_refuted.

(** Two certificates, a CRL and a key. *)
Example C92_case : exists st,
  est_load_trusted_certs (reads [one [67; 78; 61; 97]; {| i_x509 := Some {| t_subject := [67; 78; 61; 98]; t_der := [48; 2] |}; i_crl := Some [48; 3] |}; {| i_x509 := None; i_crl := None |}] true) (Some [45; 45])
    = Ok (EST_ERR_NONE, Some st) /\ st = [Anchor [48; 1]; Anchor [48; 2]; Crl [48; 3]].
Proof. eexists. split; [vm_compute; reflexivity|reflexivity]. Qed.
