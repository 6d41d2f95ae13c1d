(** The proxy's handling of requests for CA certificates and CSR attributes. *)
From Coq Require Import String ZArith List Bool Lia ZifyBool ZifyNat.
From Verif Require Import Base Spec.Http Spec.Server Spec.Relay Model.CLib Model.EstErr Model.Codec Model.Uri Model.AuthHdr Model.HttpServer Model.CsrAttrs Model.ClientHttp Model.Server Model.Relay
  Proofs.EstErr Proofs.Uri Proofs.ServerAuth Proofs.ServerEnroll Proofs.ServerReply Proofs.ServerProps Proofs.ServerClaims Proofs.ServerResponse Proofs.RelayRequest Proofs.RelayReply.
From Verif Require Spec.ClientCalls Model.Client Proofs.ClientCalls Proofs.ClientShelf Proofs.RelayCourse Proofs.RelayAnswer.
Import ListNotations.
Open Scope Z_scope.

(** ** Responses are read in one way *)
Lemma line_split : forall a b x y, one_line a -> one_line b -> a ++ CRLF ++ x = b ++ CRLF ++ y -> a = b /\ x = y.
Proof.
  induction a as [|c a IH]; intros b x y Ha Hb H; destruct b as [|d b]; cbn in H.
  - injection H as <-. auto.
  - exfalso. injection H as <- _. inversion Hb; subst. tauto.
  - exfalso. injection H as -> _. inversion Ha; subst. tauto.
  - injection H as <- H. inversion Ha; inversion Hb; subst. destruct (IH b x y) as [-> ->]; auto.
Qed.
Lemma headers_split : forall hs hs' x y, Forall (fun h => one_line (fst h) /\ one_line (snd h)) hs -> Forall (fun h => one_line (fst h) /\ one_line (snd h)) hs' ->
  concat (map render_header hs) ++ CRLF ++ x = concat (map render_header hs') ++ CRLF ++ y -> x = y.
Proof.
  assert (G : forall h : bytes * bytes, one_line (fst h) /\ one_line (snd h) -> exists l, one_line l /\ l <> [] /\ render_header h = l ++ CRLF).
  { intros [n v] [Hn Hv]. cbn [fst snd] in *. exists (n ++ str ": " ++ v). split; [|split].
    - apply Forall_app. split; [exact Hn|]. apply Forall_app. split; [|exact Hv]. repeat constructor; discriminate.
    - destruct n; discriminate.
    - unfold render_header. rewrite <- !app_assoc. reflexivity. }
  induction hs as [|h hs IH]; intros hs' x y F F' H; destruct hs' as [|h' hs']; cbn [map concat] in H.
  - cbn in H. now injection H as <-.
  - exfalso. inversion F' as [|? ? F1 F2]; subst. destruct (G h' F1) as (l & Ol & Nl & E). rewrite E, <- !app_assoc in H. cbn [Datatypes.app] in H. apply (line_split [] l) in H; [|constructor|exact Ol]. destruct H as [<- _]. contradiction.
  - exfalso. inversion F as [|? ? F1 F2]; subst. destruct (G h F1) as (l & Ol & Nl & E). rewrite E, <- !app_assoc in H. cbn [Datatypes.app] in H. apply (line_split l []) in H; [|exact Ol|constructor]. destruct H as [-> _]. contradiction.
  - inversion F as [|? ? F1 F2]; subst. inversion F' as [|? ? F3 F4]; subst. destruct (G h F1) as (l & Ol & Nl & E). destruct (G h' F3) as (l' & Ol' & Nl' & E').
    rewrite E, E', <- !app_assoc in H. apply line_split in H as [_ H]; auto. eapply IH; eauto.
Qed.
Lemma response_unique : forall d code hs body code' hs' body', response d code hs body -> response d code' hs' body' -> code = code' /\ body = body'.
Proof.
  intros * (num & reason & D & L & R & F & E) (num' & reason' & D' & L' & R' & F' & E'). rewrite E in E'. clear E. apply app_inv_head in E'.
  assert (En : num = num' /\ str " " ++ reason ++ CRLF ++ concat (map render_header hs) ++ CRLF ++ body = str " " ++ reason' ++ CRLF ++ concat (map render_header hs') ++ CRLF ++ body').
  { unfold len in *. assert (length num = length num') by lia. clear - E' H. revert num' E' H. induction num as [|x num IH]; intros [|y num'] E H; cbn in H; try discriminate; [auto|].
    injection E as <- E. destruct (IH num') as [-> ->]; auto. }
  destruct En as [<- En]. split.
  - destruct D as (_ & _ & D). destruct D' as (_ & _ & D'). congruence.
  - apply app_inv_head in En. apply line_split in En as [_ En]; auto. eapply headers_split; [exact F|exact F'|exact En].
Qed.

Section P.
Context {cert csr key E : Type}.
Variable O : @ossl cert csr key.
Variable C : @config cert.
Variable A : @app cert key E.
Variable parse_uri : bytes -> res (est_error * option operation * option bytes).
Variable keep : Z -> bool.
Variable X : Client.ext.
Variable own_path : option bytes.
Variable have_ctx : bool.
Variable n : nat.
Notation fuel := (S (S n)).
Notation pevent := (@pevent cert key).
Notation event := (@event cert key).
Notation pst := (@pst E).
Notation request := (est_proxy_http_request O C A parse_uri keep X own_path have_ctx fuel).
Implicit Types (s : pst) (e : list pevent).
Local Notation world s := (Client.s_env (p_up s)).

Lemma up_inv : forall T (m : Client.M T) s e r, @up cert key E T m s = (e, r) ->
  exists evs r0, m (p_up s) = (evs, r0) /\ e = map Up evs
    /\ ((r0 = UB /\ r = UB) \/ exists x u, r0 = Ok (x, u) /\ r = Ok (x, {| p_dn := p_dn s; p_up := u; p_delay := p_delay s |})).
Proof.
  intros T m s e r H. unfold up in H. destruct (m (p_up s)) as [d [[x u]|]]; injection H as <- <-; eexists d, _; (split; [reflexivity|]; split; [reflexivity|]); [right|left]; eauto.
Qed.
Lemma take_inv : forall s e r, @take_delay cert key E s = (e, r) -> e = [] /\ r = Ok (tt, {| p_dn := p_dn s; p_up := p_up s; p_delay := k_delay (Client.c_http (Client.s_c (p_up s))) |}).
Proof. intros s e r H. unfold take_delay, pbind, up, Client.get, set_delay in H. cbn in H. injection H as <- <-. split; [reflexivity|]. destruct (p_up s); reflexivity. Qed.
Lemma put_up : forall s c0, p_up (put_client s c0) = {| Client.s_c := c0; Client.s_env := world s |}.
Proof. reflexivity. Qed.

(** The upstream part of a fetch, and its error. *)
Definition fetched (o : operation) (c0 : Client.client) (w : list Client.attempt) (evs : list Client.event) (rv : est_error) (k : cctx) : Prop :=
  RelayAnswer.fails X o c0 w evs rv k \/ RelayAnswer.served X o c0 w evs.

Lemma cacerts_run : forall path s e r, est_proxy_handle_cacerts C A X own_path have_ctx path s = (e, r) -> ups e <> [] ->
  exists c0 evs d2, e = map Up evs ++ map Dn d2 /\ have_ctx = true /\ c_cacerts C = None /\ chosen own_path path (Client.s_c (p_up s)) c0
   /\ ((r = UB /\ d2 = [] /\ (evs = [ClientCalls.conn c0] \/ exists q t, evs = [ClientCalls.conn c0; Client.ERequest q; Client.EResponse t]))
       \/ exists rv c1, ((rv <> EST_ERR_NONE /\ fetched OP_CACERTS c0 (world s) evs rv (Client.c_http c1) /\ d2 = [] /\ exists s', r = Ok (upstream_error rv, s') /\ p_delay s' = k_delay (Client.c_http c1))
         \/ (rv = EST_ERR_NONE /\ RelayAnswer.served X OP_CACERTS c0 (world s) evs /\ exists q t body text rc s', evs = [ClientCalls.conn c0; Client.ERequest q; Client.EResponse t] /\ ClientCalls.reply_body OP_CACERTS t body
              /\ ClientCalls.verified X body text /\ r = Ok (rc, s') /\ (is_http C = true -> exists sd sd', est_handle_cacerts A (Some text) sd = (d2, Ok (rc, sd')))))).
Proof.
  intros path s e r H Nu. unfold est_proxy_handle_cacerts in H. destruct (c_cacerts C) as [b|].
  { exfalso. apply Nu. destruct (is_http C); [|apply pret_inv in H as [-> _]; reflexivity]. apply dn_inv in H as (d & _ & _ & -> & _). apply ups_dn. }
  destruct have_ctx eqn:Hc; cbn [negb] in H; [|exfalso; apply Nu; apply pret_inv in H as [-> _]; reflexivity].
  destruct (@choose_run cert key E own_path path s) as (c0 & Q & Ch). apply pbind_inv in H as [[H _]|(e1 & x & s1 & e2 & H1 & H & ->)]; [rewrite Q in H; discriminate|].
  rewrite Q in H1. injection H1 as <- <- <-. change (negb (err_eqb EST_ERR_NONE EST_ERR_NONE)) with false in H. cbv iota in H. cbn [Datatypes.app] in *.
  apply pbind_inv in H as [[H ->]|(e3 & rv & s2 & e4 & H1 & H & ->)].
  - apply up_inv in H as (evs & r0 & Hm & -> & [[-> _]|(? & ? & _ & Hx)]); [|discriminate]. rewrite put_up in Hm.
    exists c0, evs, []. cbn [map]. rewrite app_nil_r. repeat split; auto. left.
    destruct (RelayAnswer.cacerts_fetch _ _ _ _ _ Hm) as [(_ & ? & _ & _ & F)|[(_ & F)|(? & ? & F & _)]]; [discriminate| |discriminate]. auto.
  - apply up_inv in H1 as (evs & r0 & Hm & -> & [[_ Hx]|(rv' & u & -> & Hx)]); [discriminate|]. injection Hx as <- ->. rewrite put_up in Hm.
    destruct (RelayAnswer.cacerts_fetch _ _ _ _ _ Hm) as [(-> & e0 & N0 & N1 & F)|[(F & _)|(rv' & c1 & F & Ft)]]; [|discriminate|].
    { exfalso. apply Nu. injection F as -> ->. cbn [map Datatypes.app].
      apply pbind_inv in H as [[H _]|(e5 & x & s3 & e6 & H1 & H & ->)]; [apply take_inv in H as [_ H]; discriminate|]. apply take_inv in H1 as [-> H1].
      replace (err_eqb e0 EST_ERR_NONE) with false in H by (destruct e0; congruence || reflexivity). cbn [negb] in H. apply pret_inv in H as [-> _]. reflexivity. }
    injection F as <- ->.
    apply pbind_inv in H as [[H _]|(e5 & x & s3 & e6 & H1 & H & ->)]; [apply take_inv in H as [_ H]; discriminate|]. apply take_inv in H1 as [-> H1]. injection H1 as -> ->.
    cbn [p_up p_dn p_delay Client.s_c Datatypes.app] in *.
    destruct (err_none_dec rv) as [->|[Ne Eb]].
    + change (negb (err_eqb EST_ERR_NONE EST_ERR_NONE)) with false in H. cbv iota in H.
      destruct (ClientShelf.cacerts_moves _ _ _ _ _ _ _ Hm) as [_ [(_ & _ & q & t & body & text & Ev & Rb & V & Ec)|[N _]]]; [|contradiction]. cbn [Client.s_c] in Ec.
      destruct Ft as [Ft|Ft]; [apply RelayAnswer.fails_error in Ft as [Ft _]; contradiction|].
      apply pbind_inv in H as [[H _]|(e5 & x & s3 & e7 & H1 & H & ->)]; [discriminate|]. unfold up, Client.get in H1. cbn in H1. injection H1 as <- <- <-. cbn [Datatypes.app p_dn p_up p_delay] in H.
      destruct (is_http C) eqn:Hh.
      * apply dn_inv in H as (d2 & r0 & Hd & -> & Hr). exists c0, evs, d2. rewrite Ec in Hd. split; [reflexivity|]. repeat split; auto. right. exists EST_ERR_NONE, c1. right. split; [reflexivity|]. split; [exact Ft|].
        destruct (send_200_ok A (str "application/pkcs7-mime") text (p_dn s)) as (wd & er & sd' & Hs). cbn [est_handle_cacerts] in Hd. cbn [p_dn put_client] in Hd. rewrite Hs in Hd. injection Hd as -> <-.
        destruct Hr as [[Hr _]|(y & u & Hr & ->)]; [discriminate|]. injection Hr as -> ->.
        exists q, t, body, text, y. eexists. split; [exact Ev|]. split; [exact Rb|]. split; [exact V|]. split; [reflexivity|]. intros _. exists (p_dn s), u. exact Hs.
      * apply pret_inv in H as [-> ->]. exists c0, evs, []. split; [reflexivity|]. repeat split; auto. right. exists EST_ERR_NONE, c1. right. split; [reflexivity|]. split; [exact Ft|].
        exists q, t, body, text, EST_ERR_NONE. eexists. split; [exact Ev|]. split; [exact Rb|]. split; [exact V|]. split; [reflexivity|]. discriminate.
    + rewrite Eb in H. cbn [negb] in H. apply pret_inv in H as [-> ->]. exists c0, evs, []. split; [reflexivity|]. repeat split; auto. right. exists rv, c1. left. split; [exact Ne|]. split; [exact Ft|]. split; [reflexivity|].
      eexists. split; [reflexivity|reflexivity].
Qed.

(** What is made of the attributes. *)
Inductive offered (d : option bytes) : option bytes -> Prop :=
| of_plain : c_pop C = false -> offered d d
| of_present : c_pop C = true -> offered d d
| of_pop : c_pop C = true -> none_left d = true -> offered d (Some EST_CSRATTRS_POP)
| of_added : forall b d2, c_pop C = true -> d = Some b -> est_add_challengePassword (Client.x_G X) (Client.x_bio X) b = Ok (EST_ERR_NONE, d2) -> offered d (Some d2)
| of_broken : c_pop C = true -> offered d None.
Lemma no_content_run : forall s e r, pbind get_delay (fun d => pbind (dn (est_send_http_error A keep d EST_ERR_HTTP_NO_CONTENT)) (fun _ => pret EST_ERR_NONE)) s = (e, r) ->
  exists d2, e = map Dn d2 /\ (all_sent d2 -> exists s', r = Ok (EST_ERR_NONE, s') /\ reply d2 204 []).
Proof.
  intros s e r H. apply pbind_inv in H as [[H _]|(e1 & d & s1 & e2 & H1 & H & ->)]; [discriminate|]. unfold get_delay in H1. injection H1 as <- <- <-. cbn [Datatypes.app].
  rewrite (delay_unused A keep) in H by discriminate.
  apply pbind_inv in H as [[H ->]|(e1 & [] & s1 & e2' & H1 & H & ->)].
  - apply dn_inv in H as (d2 & r0 & Hd & -> & [[-> _]|(? & ? & _ & Hx)]); [|discriminate]. exists d2. split; [reflexivity|]. intro AS.
    destruct (error_replies A keep _ _ _ _ _ (Z.le_refl 0) Hd AS) as (? & ? & ? & ? & _). discriminate.
  - apply pret_inv in H as [-> ->]. apply dn_inv in H1 as (d2 & r0 & Hd & -> & [[_ Hx]|(x & u & -> & Hx)]); [discriminate|]. exists d2. rewrite app_nil_r. split; [reflexivity|]. intro AS.
    destruct (error_replies A keep _ _ _ _ _ (Z.le_refl 0) Hd AS) as (s2 & hs & body & _ & R & F & _ & B4 & _). cbn [http_status] in *. rewrite B4 in * by reflexivity. eexists. split; [reflexivity|]. now exists hs.
Qed.
Lemma csrattr_data_run : forall d s e r, dn (est_send_csrattr_data C A keep d) s = (e, r) ->
  exists d2, e = map Dn d2 /\ (0 <= c_retry C -> all_sent d2 -> exists s', r = Ok (EST_ERR_NONE, s') /\ ((exists x, d = Some x /\ x <> [] /\ reply d2 200 x) \/ ((d = None \/ d = Some []) /\ reply d2 204 []))).
Proof.
  intros d s e r H. apply dn_inv in H as (d2 & r0 & Hd & -> & Q). exists d2. split; [reflexivity|]. intros Hr AS.
  destruct r0 as [[er u]|]; destruct Q as [[Q1 Q]|(x & u' & Q1 & Q)]; try discriminate.
  - injection Q1 as <- <-. destruct (send_csrattr_replies C A keep _ _ _ _ _ Hr Hd AS) as [-> K]. eexists. split; [exact Q|exact K].
  - exfalso. unfold est_send_csrattr_data in Hd.
    assert (G : mbind (est_send_http_error A keep (c_retry C) EST_ERR_HTTP_NO_CONTENT) (fun _ => ret EST_ERR_NONE) (p_dn s) <> (d2, UB)).
    { intro H. apply mbind_inv in H as [[H _]|(e1 & [] & s1 & e2 & H1 & H & ->)]; [|discriminate]. destruct (error_replies A keep _ _ _ _ _ Hr H AS) as (? & ? & ? & ? & _). discriminate. }
    destruct d as [[|x l]|]; try (apply G; exact Hd). destruct (send_200_ok A (str "application/csrattrs") (x :: l) (p_dn s)) as (? & ? & ? & Hs). rewrite Hs in Hd. discriminate.
Qed.

(** A failure that ends the handling. *)
Definition no_way_on (rv : est_error) : bool := negb (err_eqb rv EST_ERR_NONE) && negb (err_eqb rv EST_ERR_HTTP_NO_CONTENT && c_pop C).
Lemma csrattrs_run : forall path s e r, est_proxy_handle_csr_attrs C A keep X own_path have_ctx path s = (e, r) -> ups e <> [] ->
  exists c0 evs d2, e = map Up evs ++ map Dn d2 /\ have_ctx = true /\ chosen own_path path (Client.s_c (p_up s)) c0
   /\ ((r = UB /\ (evs = [ClientCalls.conn c0] \/ exists q t, evs = [ClientCalls.conn c0; Client.ERequest q; Client.EResponse t]))
       \/ exists rv d c1, ((RelayAnswer.fails X OP_CSRATTRS c0 (world s) evs rv (Client.c_http c1) /\ d = None)
             \/ (RelayAnswer.served X OP_CSRATTRS c0 (world s) evs
                 /\ (d = None \/ exists q t b, evs = [ClientCalls.conn c0; Client.ERequest q; Client.EResponse t] /\ rv = EST_ERR_NONE /\ d = Some b /\ b <> [] /\ ClientCalls.reply_body OP_CSRATTRS t b)))
          /\ ((no_way_on rv = true /\ d2 = [] /\ exists s', r = Ok (upstream_error rv, s') /\ p_delay s' = k_delay (Client.c_http c1))
              \/ (no_way_on rv = false /\ (0 <= c_retry C -> all_sent d2 -> r = UB \/ exists s' o, r = Ok (EST_ERR_NONE, s') /\ offered d o
                   /\ ((exists x, o = Some x /\ x <> [] /\ reply d2 200 x) \/ ((o = None \/ o = Some []) /\ reply d2 204 [])))))).
Proof.
  intros path s e r H Nu. unfold est_proxy_handle_csr_attrs in H. cbv zeta in H.
  destruct have_ctx eqn:Hc; cbn [negb] in H; [|exfalso; apply Nu; apply pret_inv in H as [-> _]; reflexivity].
  destruct (@choose_run cert key E own_path path s) as (c0 & Q & Ch). apply pbind_inv in H as [[H _]|(e1 & x & s1 & e2 & H1 & H & ->)]; [rewrite Q in H; discriminate|].
  rewrite Q in H1. injection H1 as <- <- <-. change (negb (err_eqb EST_ERR_NONE EST_ERR_NONE)) with false in H. cbv iota in H. cbn [Datatypes.app] in *. exists c0.
  apply pbind_inv in H as [[H ->]|(e3 & [rv d] & s2 & e4 & H1 & H & ->)].
  { apply up_inv in H as (evs & r0 & Hm & -> & [[-> _]|(? & ? & _ & Hx)]); [|discriminate]. rewrite put_up in Hm.
    exists evs, []. cbn [map]. rewrite app_nil_r. repeat split; auto. left.
    destruct (RelayAnswer.csrattrs_fetch _ _ _ _ _ Hm) as [(_ & F)|(? & ? & ? & F & _)]; [|discriminate]. auto. }
  apply up_inv in H1 as (evs & r0 & Hm & -> & [[_ Hx]|([rv' d'] & u & -> & Hx)]); [discriminate|]. injection Hx as <- <- ->. rewrite put_up in Hm.
  destruct (RelayAnswer.csrattrs_fetch _ _ _ _ _ Hm) as [(F & _)|(rv' & d' & c1 & F & Ft)]; [discriminate|]. injection F as <- <- ->.
  apply pbind_inv in H as [[H _]|(e5 & x & s3 & e6 & H1 & H & ->)]; [apply take_inv in H as [_ H]; discriminate|]. apply take_inv in H1 as [-> H1]. injection H1 as -> ->.
  apply pbind_inv in H as [[H _]|(e5 & x & s3 & e7 & H1 & H & ->)]; [discriminate|]. unfold up, Client.upd in H1. cbn in H1. injection H1 as <- <- <-. cbn [Datatypes.app] in *.
  set (s3 := {| p_dn := p_dn s; p_up := _; p_delay := _ |}) in H.
  assert (Fd : (RelayAnswer.fails X OP_CSRATTRS c0 (world s) evs rv (Client.c_http c1) /\ d = None)
             \/ (RelayAnswer.served X OP_CSRATTRS c0 (world s) evs
                 /\ (d = None \/ exists q t b, evs = [ClientCalls.conn c0; Client.ERequest q; Client.EResponse t] /\ rv = EST_ERR_NONE /\ d = Some b /\ b <> [] /\ ClientCalls.reply_body OP_CSRATTRS t b))) by (destruct Ft as [Ft|[Ft [G|G]]]; auto).
  clear Ft. fold (no_way_on rv) in H.
  destruct (no_way_on rv) eqn:Nw.
  { apply pret_inv in H as [-> ->]. exists evs, []. split; [reflexivity|]. repeat split; auto. right. exists rv, d, c1. split; [exact Fd|]. left. split; [exact Nw|]. split; [reflexivity|]. eexists. split; reflexivity. }
  assert (Gd : forall o e r, offered d o -> dn (est_send_csrattr_data C A keep o) s3 = (e, r) -> exists d2, e = map Dn d2 /\ (0 <= c_retry C -> all_sent d2 -> exists s' o, r = Ok (EST_ERR_NONE, s') /\ offered d o
                   /\ ((exists x, o = Some x /\ x <> [] /\ reply d2 200 x) \/ ((o = None \/ o = Some []) /\ reply d2 204 [])))).
  { intros o e0 r0 Of Hd. apply csrattr_data_run in Hd as (d2 & -> & K). exists d2. split; [reflexivity|]. intros Hr AS. destruct (K Hr AS) as (s' & -> & K2). exists s', o. auto. }
  assert (Gn : forall e r, c_pop C = true -> pbind get_delay (fun d => pbind (dn (est_send_http_error A keep d EST_ERR_HTTP_NO_CONTENT)) (fun _ => pret EST_ERR_NONE)) s3 = (e, r) ->
     exists d2, e = map Dn d2 /\ (0 <= c_retry C -> all_sent d2 -> exists s' o, r = Ok (EST_ERR_NONE, s') /\ offered d o
                   /\ ((exists x, o = Some x /\ x <> [] /\ reply d2 200 x) \/ ((o = None \/ o = Some []) /\ reply d2 204 [])))).
  { intros e0 r0 Pp Hd. apply no_content_run in Hd as (d2 & -> & K). exists d2. split; [reflexivity|]. intros _ AS. destruct (K AS) as (s' & -> & K2). exists s', None. split; [reflexivity|]. split; [now constructor|]. auto. }
  assert (Go : exists d2, e7 = map Dn d2 /\ (0 <= c_retry C -> all_sent d2 -> r = UB \/ exists s' o, r = Ok (EST_ERR_NONE, s') /\ offered d o
                   /\ ((exists x, o = Some x /\ x <> [] /\ reply d2 200 x) \/ ((o = None \/ o = Some []) /\ reply d2 204 [])))).
  { assert (Lf : forall T (q : res T) (f : T -> @P cert key E est_error), (forall x, q = Ok x -> f x s3 = (e7, r) -> exists d2, e7 = map Dn d2 /\ (0 <= c_retry C -> all_sent d2 -> r = UB \/ exists s' o, r = Ok (EST_ERR_NONE, s') /\ offered d o
                   /\ ((exists x, o = Some x /\ x <> [] /\ reply d2 200 x) \/ ((o = None \/ o = Some []) /\ reply d2 204 [])))) -> pbind (plift q) f s3 = (e7, r) ->
             exists d2, e7 = map Dn d2 /\ (0 <= c_retry C -> all_sent d2 -> r = UB \/ exists s' o, r = Ok (EST_ERR_NONE, s') /\ offered d o
                   /\ ((exists x, o = Some x /\ x <> [] /\ reply d2 200 x) \/ ((o = None \/ o = Some []) /\ reply d2 204 [])))).
    { intros T q f Hf Hq. apply pbind_inv in Hq as [[Hq ->]|(e8 & y & s4 & e9 & H1 & Hq & ->)].
      - apply plift_inv in Hq as [-> _]. exists []. split; [reflexivity|]. auto.
      - apply plift_inv in H1 as [-> [[_ H1]|(z & -> & H1)]]; [discriminate|]. injection H1 as -> ->. apply (Hf z); auto. }
    destruct (c_pop C) eqn:Pp.
    - revert H. apply Lf. intros [pe present] _ H. destruct (negb (err_eqb pe EST_ERR_NONE)); [destruct (Gn _ _ eq_refl H) as (d2 & -> & K); exists d2; split; auto|].
      destruct present; [destruct (Gd _ _ _ (of_present d Pp) H) as (d2 & -> & K); exists d2; split; auto|].
      destruct (none_left d) eqn:Nl; [destruct (Gd _ _ _ (of_pop d Pp Nl) H) as (d2 & -> & K); exists d2; split; auto|].
      destruct d as [b|]; [|discriminate]. revert H. apply Lf. intros [ae d3] Ea H. destruct (err_none_dec ae) as [->|[Ne Eb]].
      + change (negb (err_eqb EST_ERR_NONE EST_ERR_NONE)) with false in H. cbv iota in H. destruct (Gd _ _ _ (of_added _ b d3 Pp eq_refl Ea) H) as (d2 & -> & K); exists d2; split; auto.
      + rewrite Eb in H. cbn [negb] in H. destruct (Gn _ _ eq_refl H) as (d2 & -> & K); exists d2; split; auto.
    - destruct (Gd _ _ _ (of_plain d Pp) H) as (d2 & -> & K); exists d2; split; auto. }
  destruct Go as (d2 & -> & K). exists evs, d2. split; [reflexivity|]. repeat split; auto. right. exists rv, d, c1. split; [exact Fd|]. right. auto.
Qed.
End P.
