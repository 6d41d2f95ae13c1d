(** The connection loop computes a function of the byte stream. *)
From Coq Require Import String ZArith List Bool Lia ZifyBool ZifyNat.
From Verif Require Import Base Model.CLib Model.HttpServer Spec.Http Spec.HttpConn Proofs.HttpParse.
Import ListNotations.
Open Scope Z_scope.

(** ** URI treatment never has undefined behaviour *)
Lemma url_decode_loop_ok : forall f n s sl dl, (length s <= n)%nat -> sl <= len s ->
  exists r ok, url_decode_loop s sl dl f = Ok (r, ok) /\ len r <= Z.max 0 sl /\ len r <= Z.max 0 dl.
Proof.
  intros f. induction n as [|n IH]; intros s sl dl Hn Hl.
  - destruct s; [|cbn in Hn; lia]. change (len []) with 0 in Hl. unfold url_decode_loop.
    replace ((sl <=? 0) || (dl <=? 0)) with true by lia. eexists _, _. split; [reflexivity|]. rewrite len_nil. lia.
  - destruct s as [|c t].
    + change (len []) with 0 in Hl. cbn [url_decode_loop].
      replace ((sl <=? 0) || (dl <=? 0)) with true by lia. eexists _, _. split; [reflexivity|]. rewrite len_nil. lia.
    + rewrite len_cons in Hl. cbn in Hn. cbn [url_decode_loop].
      destruct ((sl <=? 0) || (dl <=? 0)) eqn:E.
      { eexists _, _. split; [reflexivity|]. rewrite len_nil. lia. }
      destruct (IH t (sl - 1) (dl - 1) ltac:(lia) ltac:(lia)) as (r & ok & E1 & L1 & L2).
      assert (P : exists r0 ok0, bind (url_decode_loop t (sl - 1) (dl - 1) f)
           (fun x => let (r, ok) := x in Ok ((if f && (c =? 43) then 32 else c) :: r, ok)) = Ok (r0, ok0)
           /\ len r0 <= Z.max 0 sl /\ len r0 <= Z.max 0 dl).
      { rewrite E1. cbn [bind]. eexists _, _. split; [reflexivity|]. rewrite len_cons. lia. }
      destruct t as [|a [|b u]]; [exact P|exact P|].
      destruct ((c =? 37) && isxdigit a && isxdigit b); [|exact P].
      rewrite !len_cons in Hl. cbn in Hn.
      destruct (IH u (sl - 3) (dl - 1) ltac:(lia) ltac:(lia)) as (r' & ok' & E2 & L1' & L2').
      rewrite E2. cbn [bind]. eexists _, _. split; [reflexivity|]. rewrite len_cons. lia.
Qed.

Lemma handle_uri_ok : forall u, exists v, handle_uri u = Ok v.
Proof.
  intro u. unfold handle_uri, url_decode.
  destruct (url_decode_loop_ok false _ (before_char 63 u) (Z.min (len (before_char 63 u)) EST_URI_MAX_LEN)
              (Z.min (len (before_char 63 u)) EST_URI_MAX_LEN + 1 - 1) (le_n _) ltac:(lia)) as (r & ok & E & _).
  rewrite E. cbn [bind]. eexists. reflexivity.
Qed.
Definition uri_of (u : bytes) : bytes := match handle_uri u with Ok v => v | UB => [] end.
Lemma handle_uri_eq : forall u, handle_uri u = Ok (uri_of u).
Proof. intro u. unfold uri_of. destruct (handle_uri_ok u) as [v ->]. reflexivity. Qed.

(** ** Parsing a request at the string level *)
Definition req_of_head (h : bytes) : option http_req :=
  let '(meth, uri, ver, hs) := req_text h in
  if is_valid_http_method meth && strncmp_eq 5 ver [72; 84; 84; 80; 47]
  then Some {| hr_method := meth; hr_uri := uri; hr_version := skipn 5 ver; hr_headers := hs |}
  else None.

Lemma parse_http_request_spec : forall buf buflen rl,
  0 <= buflen <= len buf -> get_request_len (firstn (Z.to_nat buflen) buf) = rl -> 0 < rl ->
  parse_http_request buf buflen =
  Ok (match req_of_head (firstn (Z.to_nat (rl - 1)) buf) with Some rq => Some (rl, rq) | None => None end).
Proof.
  intros buf buflen rl Hb Hrl Hpos. unfold parse_http_request.
  destruct (parse_http_message_spec buf buflen Hb) as [[H _]|(_ & m & ri & E & _ & _ & _ & E1 & E2 & E3 & E4)];
    rewrite Hrl in *; [lia|].
  rewrite E. cbn [bind]. rewrite E1, E2, E3, E4. cbn [bind]. unfold req_of_head.
  destruct (req_text (firstn (Z.to_nat (rl - 1)) buf)) as [[[meth uri] ver] hs].
  destruct (_ && _); reflexivity.
Qed.

(** ** Reading *)
Definition stream_of (m : bytes) (dl : Z) (w : net) : bytes := firstn (Z.to_nat dl) m ++ concat w.

Lemma firstn_app_le : forall A (a b : list A) n, (n <= length a)%nat -> firstn n (a ++ b) = firstn n a.
Proof. intros. rewrite firstn_app. replace (n - length a)%nat with 0%nat by lia. cbn. apply app_nil_r. Qed.
Lemma skipn_app_le : forall A (a b : list A) n, (n <= length a)%nat -> skipn n (a ++ b) = skipn n a ++ b.
Proof. intros. rewrite skipn_app. replace (n - length a)%nat with 0%nat by lia. reflexivity. Qed.

Lemma pull_spec : forall w n, 0 < n ->
  match pull w n with
  | (PullErr, w') => w = [] /\ w' = []
  | (PullData d, w') => concat w = d ++ concat w' /\ len d <= n /\ (net_size w' < net_size w)%nat
  end.
Proof.
  intros [|seg w] n Hn; cbn [pull]; [auto|].
  destruct (len seg <=? n) eqn:E.
  - cbn [concat]. repeat split; [lia|]. unfold net_size. cbn [length concat]. rewrite app_length. lia.
  - cbn [concat]. repeat split.
    + rewrite app_assoc, firstn_skipn. reflexivity.
    + rewrite len_firstn. lia.
    + unfold net_size. cbn [length concat]. rewrite !app_length, skipn_length. unfold len in E. lia.
Qed.

Lemma blit_ok : forall m i d, 0 <= i -> i + len d <= len m ->
  exists m', blit m i d = Ok m' /\ len m' = len m /\
  firstn (Z.to_nat (i + len d)) m' = firstn (Z.to_nat i) m ++ d.
Proof.
  intros m i d H1 H2. unfold blit. replace ((0 <=? i) && (i + len d <=? len m)) with true by lia.
  eexists. split; [reflexivity|]. pose proof (len_nonneg _ d). split.
  - rewrite !len_app, len_firstn, len_skipn. lia.
  - rewrite app_assoc. rewrite firstn_app.
    assert (L : length (firstn (Z.to_nat i) m ++ d) = Z.to_nat (i + len d)).
    { rewrite app_length, firstn_length. unfold len in *. lia. }
    rewrite L, Nat.sub_diag. cbn [firstn]. rewrite app_nil_r. apply firstn_all2. lia.
Qed.

Lemma firstn_stream : forall m dl w k, 0 <= dl <= len m -> 0 <= k <= dl ->
  firstn (Z.to_nat k) (stream_of m dl w) = firstn (Z.to_nat k) m.
Proof.
  intros. unfold stream_of. rewrite firstn_app_le by (rewrite firstn_length; unfold len in *; lia).
  rewrite firstn_firstn. f_equal. lia.
Qed.

Lemma len_stream : forall m dl w, 0 <= dl <= len m -> len (stream_of m dl w) = dl + len (concat w).
Proof. intros. unfold stream_of. rewrite len_app, len_firstn. lia. Qed.

(** Outcome of read_request in terms of the stream. *)
Lemma read_loop_spec : forall fuel m dl w rl,
  (net_size w < fuel)%nat -> 0 <= dl <= len m ->
  rl = get_request_len (firstn (Z.to_nat dl) m) ->
  exists m' dl' rl' w',
    read_loop fuel m dl rl w = Ok (m', dl', rl', w') /\ len m' = len m /\ 0 <= dl' <= len m
    /\ stream_of m' dl' w' = stream_of m dl w
    /\ ((rl' = get_request_len (firstn (Z.to_nat dl') m') /\ (rl' <> 0 \/ dl' = len m))
        \/ (rl' = -1 /\ w' = [] /\ dl' < len m /\ get_request_len (firstn (Z.to_nat dl') m') = 0)).
Proof.
  induction fuel as [|fuel IH]; intros m dl w rl Hf Hdl Hrl; [lia|].
  cbn [read_loop]. destruct ((dl <? len m) && (rl =? 0)) eqn:E.
  - pose proof (pull_spec w (len m - dl) ltac:(lia)) as Hp.
    destruct (pull w (len m - dl)) as [[|d] w'].
    + destruct Hp as [-> ->]. exists m, dl, (-1), []. split; [reflexivity|].
      repeat split; try lia. right. repeat split; lia.
    + destruct Hp as (Hc & Hld & Hns). destruct (0 <? len d) eqn:Ed.
      * destruct (blit_ok m dl d ltac:(lia) ltac:(lia)) as (m' & Eb & Lm & Fm).
        rewrite Eb. cbn [bind].
        destruct (IH m' (dl + len d) w' _ ltac:(lia) ltac:(lia) eq_refl)
          as (m2 & dl2 & rl2 & w2 & E2 & Lm2 & Hdl2 & Hst & Hcase).
        exists m2, dl2, rl2, w2. split; [exact E2|]. rewrite Lm in *.
        repeat split; try lia; try assumption.
        rewrite Hst. unfold stream_of. rewrite Fm, Hc, <- app_assoc. reflexivity.
      * assert (d = []) by (apply len_0_nil; pose proof (len_nonneg _ d); lia). subst d.
        destruct (IH m dl w' rl ltac:(lia) Hdl Hrl)
          as (m2 & dl2 & rl2 & w2 & E2 & Lm2 & Hdl2 & Hst & Hcase).
        exists m2, dl2, rl2, w2. split; [exact E2|]. repeat split; try lia; try assumption.
        rewrite Hst. unfold stream_of. rewrite Hc. reflexivity.
  - exists m, dl, rl, w. split; [reflexivity|]. repeat split; try lia.
    
Qed.

Lemma mg_read_loop_spec : forall fuel n w, (net_size w < fuel)%nat ->
  exists b w', mg_read_loop fuel n w = Ok (b, w')
    /\ b = firstn (Z.to_nat n) (concat w)
    /\ concat w' = skipn (Z.to_nat n) (concat w).
Proof.
  induction fuel as [|fuel IH]; intros n w Hf; [lia|]. cbn [mg_read_loop].
  destruct (0 <? n) eqn:E.
  - pose proof (pull_spec w n ltac:(lia)) as Hp. destruct (pull w n) as [[|d] w'].
    + destruct Hp as [-> ->]. eexists _, _. split; [reflexivity|]. cbn. rewrite firstn_nil, skipn_nil. auto.
    + destruct Hp as (Hc & Hld & Hns).
      destruct (IH (n - len d) w' ltac:(lia)) as (b & w2 & E2 & Hb & Hw).
      rewrite E2. cbn [bind]. eexists _, _. split; [reflexivity|].
      rewrite Hc, Hb, Hw. unfold len in *.
      rewrite firstn_app, skipn_app, (firstn_all2 d), (skipn_all2 d) by lia.
      replace (Z.to_nat (n - Z.of_nat (length d))) with (Z.to_nat n - length d)%nat by lia. auto.
  - eexists _, _. split; [reflexivity|]. replace (Z.to_nat n) with 0%nat by lia. auto.
Qed.

Lemma skipn_stream : forall m dl w k, 0 <= k -> 0 <= dl <= len m ->
  skipn (Z.to_nat k) (stream_of m dl w) =
  if k <=? dl then skipn (Z.to_nat k) (firstn (Z.to_nat dl) m) ++ concat w
  else skipn (Z.to_nat (k - dl)) (concat w).
Proof.
  intros m dl w k Hk Hdl. unfold stream_of. rewrite skipn_app, firstn_length.
  unfold len in Hdl.
  destruct (k <=? dl) eqn:E.
  - replace (Z.to_nat k - Nat.min (Z.to_nat dl) (length m))%nat with 0%nat by lia. reflexivity.
  - rewrite skipn_all2 by (rewrite firstn_length; lia). cbn [app]. f_equal. lia.
Qed.

Lemma mg_read_spec : forall m dl rl n w,
  0 < rl <= dl -> dl <= len m -> 0 <= n ->
  exists w', mg_read m dl rl n w = Ok (firstn (Z.to_nat n) (skipn (Z.to_nat rl) (stream_of m dl w)), w')
    /\ skipn (Z.to_nat (rl + n)) (stream_of m dl w) =
       (if rl + n <=? dl then skipn (Z.to_nat (rl + n)) (firstn (Z.to_nat dl) m) else []) ++ concat w'
    /\ (rl + n <= dl -> w' = w).
Proof.
  intros m dl rl n w Hrl Hdl Hn. unfold mg_read.
  set (buffered := firstn (Z.to_nat n) (firstn (Z.to_nat (dl - rl)) (skipn (Z.to_nat rl) m))).
  assert (Lb : len buffered = Z.min n (dl - rl)).
  { unfold buffered. rewrite !len_firstn, len_skipn. lia. }
  assert (Hsk : skipn (Z.to_nat rl) (stream_of m dl w)
                = firstn (Z.to_nat (dl - rl)) (skipn (Z.to_nat rl) m) ++ concat w).
  { rewrite skipn_stream by lia. replace (rl <=? dl) with true by lia.
    rewrite skipn_firstn_comm. do 2 f_equal. lia. }
  destruct (mg_read_loop_spec (S (net_size w)) (n - len buffered) w ltac:(lia)) as (b & w' & E & Hb & Hw).
  rewrite E. cbn [bind]. exists w'. split; [|split].
  - rewrite Hsk. rewrite firstn_app. fold buffered. rewrite Hb, Lb. do 3 f_equal.
    f_equal. rewrite firstn_length, skipn_length. unfold len in *. lia.
  - rewrite skipn_stream by lia. rewrite Hw, Lb. destruct (rl + n <=? dl) eqn:Ele.
    + replace (Z.to_nat (n - Z.min n (dl - rl))) with 0%nat by lia. reflexivity.
    + cbn [app]. f_equal. lia.
  - intro Hle. assert (Hz : Z.to_nat (n - len buffered) = 0%nat) by lia.
    cbn [mg_read_loop] in E. replace (0 <? n - len buffered) with false in E by lia. congruence.
Qed.

Lemma dec_acc_nonneg : forall s acc, 0 <= acc -> 0 <= dec_acc acc s.
Proof.
  induction s as [|c s IH]; intros acc H; cbn [dec_acc]; [assumption|].
  destruct (isdigit c) eqn:E; [|assumption]. apply IH. unfold isdigit in E. lia.
Qed.

Lemma atoi_eq_strtoll : forall s, 0 <= strtoll s <= 8192 -> atoi s = strtoll s.
Proof. intros s H. unfold atoi, to_int. rewrite Z.mod_small; lia. Qed.

Lemma move_in_shift : forall m d k, 0 <= d -> 0 <= k -> d + k <= len m ->
  exists m', move_in m 0 d k = Ok m' /\ len m' = len m
  /\ firstn (Z.to_nat k) m' = firstn (Z.to_nat k) (skipn (Z.to_nat d) m).
Proof.
  intros m d k H1 H2 H3. unfold move_in.
  replace ((0 <=? 0) && (0 + k <=? len m) && (0 <=? d) && (d + k <=? len m) && (0 <=? k)) with true by lia.
  eexists. split; [reflexivity|]. cbn [firstn Z.to_nat app]. split.
  - rewrite len_app, len_firstn, !len_skipn. lia.
  - rewrite firstn_app, firstn_firstn, Nat.min_id.
    assert (L : length (firstn (Z.to_nat k) (skipn (Z.to_nat d) m)) = Z.to_nat k).
    { rewrite firstn_length, skipn_length. unfold len in *. lia. }
    rewrite L, Nat.sub_diag. cbn [firstn]. apply app_nil_r.
Qed.

Lemma discard_ok : forall m dl rl clen, 0 < rl <= dl -> dl <= len m ->
  exists m2, (if 0 <? dl - (if (0 <=? clen) && (rl + clen <? dl) then rl + clen else dl)
              then move_in m 0 (if (0 <=? clen) && (rl + clen <? dl) then rl + clen else dl)
                           (dl - (if (0 <=? clen) && (rl + clen <? dl) then rl + clen else dl))
              else Ok m) = Ok m2.
Proof.
  intros m dl rl clen H1 H2. set (dis := if (0 <=? clen) && (rl + clen <? dl) then rl + clen else dl).
  assert (Hdis : 0 <= dis <= dl) by (unfold dis; destruct ((0 <=? clen) && (rl + clen <? dl)) eqn:?; lia).
  destruct (0 <? dl - dis); [|eauto].
  destruct (move_in_shift m dis (dl - dis) ltac:(lia) ltac:(lia) ltac:(lia)) as (m2 & E2 & _). eauto.
Qed.

Lemma should_keep_alive_error : forall mc st ka h v, mc = true \/ st = 202 \/ 400 <= st ->
  should_keep_alive mc st ka h v = false.
Proof.
  intros mc st ka h v H. unfold should_keep_alive.
  destruct mc; [reflexivity|]. destruct (st =? 202) eqn:E; [reflexivity|].
  replace (400 <=? st) with true by lia. reflexivity.
Qed.

Section Conn.
Variable S0 : Type.
Variable handler : S0 -> est_req -> S0 * Z.

Notation serve' := (serve S0 handler get_request_len req_of_head uri_of).

Lemma conn_loop_spec : forall fuel ka s m dl clen w,
  len m = MAX_REQUEST_SIZE -> 0 <= dl <= len m ->
  (length (stream_of m dl w) < fuel)%nat ->
  forall sf, (length (stream_of m dl w) < sf)%nat ->
  conn_loop S0 handler fuel ka s m dl clen w = Ok (serve' sf ka s (stream_of m dl w)).
Proof.
  induction fuel as [|fuel IH]; intros ka s m dl clen w Hm Hdl Hf sf Hsf; [lia|].
  destruct sf as [|sf]; [lia|]. cbn [conn_loop].
  unfold read_request.
  destruct (read_loop_spec (S (net_size w)) m dl w _ ltac:(lia) Hdl eq_refl)
    as (m1 & dl1 & rl1 & w1 & E1 & Lm1 & Hdl1 & Hst & Hcase).
  rewrite E1. cbn [bind]. clear E1. rewrite Hm in *. rewrite Lm1.
  rewrite <- Hst in *. clear Hst m dl w Hm Hdl.
  set (st := stream_of m1 dl1 w1) in *.
  assert (Hwin : get_request_len (firstn (Z.to_nat dl1) m1) <> 0 ->
     get_request_len (firstn (Z.to_nat 16384) st) = get_request_len (firstn (Z.to_nat dl1) m1)).
  { intro Hnz. unfold st.
    assert (Hpre : exists t, firstn (Z.to_nat 16384) (stream_of m1 dl1 w1) = firstn (Z.to_nat dl1) m1 ++ t).
    { unfold stream_of. rewrite firstn_app. 
      rewrite (firstn_all2 (n := Z.to_nat 16384)) by (rewrite firstn_length; unfold MAX_REQUEST_SIZE in *; lia).
      eexists. reflexivity. }
    destruct Hpre as [t ->]. now apply get_request_len_app. }
  assert (Lst : len st = dl1 + len (concat w1)) by (apply len_stream; lia).
  cbn [serve].
  destruct Hcase as [[Hrl Hor]|(Hrl & Hw & Hlt & Hz)].
  2:{ (* network error *)
    subst rl1 w1. replace (-1 =? 0) with false by lia. cbn [andb Z.leb Z.compare].
    assert (Hs : firstn (Z.to_nat 16384) st = firstn (Z.to_nat dl1) m1).
    { unfold st, stream_of. cbn [concat]. rewrite app_nil_r. apply firstn_all2.
      rewrite firstn_length. unfold MAX_REQUEST_SIZE in *. lia. }
    rewrite Hs, Hz. cbn [Z.eqb]. 
    replace (16384 <=? len st) with false; [reflexivity|].
    unfold MAX_REQUEST_SIZE in *. cbn [concat] in Lst. rewrite len_nil in Lst. lia. }
  destruct (Z.eq_dec rl1 0) as [Hz|Hnz].
  { (* buffer full without a complete head *)
    destruct Hor as [Hor|Hor]; [lia|]. subst dl1. rewrite Hz. replace (MAX_REQUEST_SIZE =? MAX_REQUEST_SIZE) with true by lia.
    cbn [Z.eqb andb].
    assert (Hs : firstn (Z.to_nat 16384) st = firstn (Z.to_nat MAX_REQUEST_SIZE) m1).
    { unfold st. change 16384 with MAX_REQUEST_SIZE. apply firstn_stream; lia. }
    rewrite Hs, <- Hrl, Hz. cbn [Z.eqb].
    replace (16384 <=? len st) with true; [reflexivity|].
    unfold MAX_REQUEST_SIZE in *. pose proof (len_nonneg _ (concat w1)). lia. }
  replace ((rl1 =? 0) && (dl1 =? MAX_REQUEST_SIZE)) with false by lia.
  rewrite (Hwin ltac:(lia)), <- Hrl.
  replace (rl1 =? 0) with false by lia.
  pose proof (get_request_len_bounds (firstn (Z.to_nat dl1) m1)) as Hb. rewrite <- Hrl, len_firstn in Hb.
  destruct (rl1 <=? 0) eqn:Eneg.
  { replace (rl1 <? 0) with true by lia. reflexivity. }
  replace (rl1 <? 0) with false by lia.
  assert (Hfull : get_request_len (firstn (Z.to_nat MAX_REQUEST_SIZE) m1) = rl1).
  { rewrite (firstn_all2 m1) by (unfold len in *; lia).
    rewrite <- (firstn_skipn (Z.to_nat dl1) m1). rewrite get_request_len_app; lia. }
  rewrite (parse_http_request_spec m1 MAX_REQUEST_SIZE rl1) by (try lia; assumption).
  cbn [bind].
  assert (Hh : firstn (Z.to_nat (rl1 - 1)) st = firstn (Z.to_nat (rl1 - 1)) m1).
  { apply firstn_stream; lia. }
  rewrite Hh.
  destruct (req_of_head (firstn (Z.to_nat (rl1 - 1)) m1)) as [rq|].
  2:{ cbn [bind]. rewrite should_keep_alive_error by (now left).
      cbv zeta. destruct (discard_ok m1 dl1 rl1 clen ltac:(lia) ltac:(lia)) as (m2 & E2). rw_bind E2.
    rewrite andb_false_r. reflexivity. }
  destruct (negb (is_valid_uri (hr_uri rq))).
  { cbn [bind]. rewrite should_keep_alive_error by (now left).
    cbv zeta. destruct (discard_ok m1 dl1 rl1 clen ltac:(lia) ltac:(lia)) as (m2 & E2). rw_bind E2.
    rewrite andb_false_r. reflexivity. }
  destruct (negb (strncmp_eq 3 (hr_version rq) (str "1.0")) && negb (strncmp_eq 3 (hr_version rq) (str "1.1"))).
  { cbn [bind]. rewrite should_keep_alive_error by (right; right; lia).
    cbv zeta. destruct (discard_ok m1 dl1 rl1 clen ltac:(lia) ltac:(lia)) as (m2 & E2). rw_bind E2.
    rewrite andb_false_r. reflexivity. }
  clear clen. set (clen := request_content_len rq). unfold EST_MAX_CONTENT_LEN.
  destruct (8192 <? clen) eqn:Ebig.
  { cbn [bind]. rewrite should_keep_alive_error by (right; right; lia).
    cbv zeta. destruct (discard_ok m1 dl1 rl1 clen ltac:(lia) ltac:(lia)) as (m2 & E2). rw_bind E2.
    rewrite andb_false_r. reflexivity. }
  destruct (clen <? 0) eqn:Esm.
  { cbn [bind]. rewrite should_keep_alive_error by (right; right; lia).
    cbv zeta. destruct (discard_ok m1 dl1 rl1 clen ltac:(lia) ltac:(lia)) as (m2 & E2). rw_bind E2.
    rewrite andb_false_r. reflexivity. }
  (* a served request *)
  unfold handle_request. rewrite handle_uri_eq. cbn [bind].
  assert (Hbody : exists w',
    match get_header (hr_headers rq) (str "Content-Length") with
    | Some cl => ' (b, w0) <- mg_read m1 dl1 rl1 (atoi cl) w1 ;; Ok (Some (atoi cl, b), w0)
    | None => Ok (None, w1)
    end = Ok (match get_header (hr_headers rq) (str "Content-Length") with
              | Some _ => Some (clen, firstn (Z.to_nat clen) (skipn (Z.to_nat rl1) st))
              | None => None end, w')
    /\ skipn (Z.to_nat (rl1 + clen)) st =
       (if rl1 + clen <=? dl1 then skipn (Z.to_nat (rl1 + clen)) (firstn (Z.to_nat dl1) m1) else []) ++ concat w'
    /\ (rl1 + clen <= dl1 -> w' = w1)).
  { unfold clen, request_content_len in *.
    destruct (get_header (hr_headers rq) (str "Content-Length")) as [cl|].
    - rewrite (atoi_eq_strtoll cl) by lia.
      destruct (mg_read_spec m1 dl1 rl1 (strtoll cl) w1 ltac:(lia) ltac:(lia) ltac:(lia)) as (w' & E & H1 & H2).
      exists w'. rewrite E. cbn [bind]. auto.
    - destruct (strcaseeq (hr_method rq) (str "POST") || strcaseeq (hr_method rq) (str "PUT")); [lia|].
      exists w1. split; [reflexivity|]. split; [|auto].
      unfold st. rewrite skipn_stream by lia. replace (rl1 + 0 <=? dl1) with true by lia. reflexivity. }
  destruct Hbody as (w' & Eb & Hrest & Hsame).
  match goal with |- bind (bind (bind ?e ?k) _) _ = _ =>
    replace e with (Ok (match get_header (hr_headers rq) (str "Content-Length") with
              | Some _ => Some (clen, firstn (Z.to_nat clen) (skipn (Z.to_nat rl1) st))
              | None => None end, w')) by (symmetry; exact Eb) end.
  cbn [bind]. clear Eb.
  set (r := {| er_method := hr_method rq; er_uri := uri_of (hr_uri rq);
               er_headers := hr_headers rq; er_body := _ |}).
  destruct (handler s r) as [s' stt] eqn:Eh. cbn [bind].
  set (dis := if (0 <=? clen) && (rl1 + clen <? dl1) then rl1 + clen else dl1).
  assert (Hdis : rl1 <= dis <= dl1) by (unfold dis; destruct ((0 <=? clen) && (rl1 + clen <? dl1)) eqn:?; lia).
  assert (Hmv : exists m2, (if 0 <? dl1 - dis then move_in m1 0 dis (dl1 - dis) else Ok m1) = Ok m2
             /\ len m2 = MAX_REQUEST_SIZE
             /\ stream_of m2 (dl1 - dis) w' = skipn (Z.to_nat (rl1 + clen)) st).
  { destruct (0 <? dl1 - dis) eqn:Emv.
    - destruct (move_in_shift m1 dis (dl1 - dis) ltac:(lia) ltac:(lia) ltac:(lia)) as (m2 & E2 & L2 & F2).
      exists m2. split; [exact E2|]. split; [lia|]. unfold stream_of. rewrite F2, Hrest.
      assert (Ed : dis = rl1 + clen /\ rl1 + clen < dl1).
      { unfold dis in *. destruct ((0 <=? clen) && (rl1 + clen <? dl1)) eqn:?; lia. }
      destruct Ed as [Ed Hlt]. rewrite Ed. replace (rl1 + clen <=? dl1) with true by lia.
      f_equal. rewrite skipn_firstn_comm. f_equal. lia.
    - exists m1. split; [reflexivity|]. split; [lia|]. unfold stream_of.
      replace (dl1 - dis) with 0 by lia. cbn [Z.to_nat firstn app]. rewrite Hrest.
      destruct (rl1 + clen <=? dl1) eqn:Ele; [|reflexivity].
      assert (rl1 + clen = dl1).
      { unfold dis in *. destruct ((0 <=? clen) && (rl1 + clen <? dl1)) eqn:?; lia. }
      rewrite skipn_all2 by (rewrite firstn_length; lia). reflexivity. }
  destruct Hmv as (m2 & Em & Lm2 & Hs2). rw_bind Em. clear Em.
  destruct ka.
  2:{ unfold should_keep_alive. cbn [negb]. rewrite !orb_true_r. cbn [orb negb andb]. reflexivity. }
  replace (0 <=? clen) with true by lia. cbn [andb].
  destruct (should_keep_alive false stt true _ _) eqn:Eka; [|reflexivity].
  rewrite (IH true s' m2 (dl1 - dis) clen w' ltac:(assumption) ltac:(lia)) with (sf := sf).
  - cbn [bind]. rewrite Hs2. destruct (serve' sf true s' _). reflexivity.
  - rewrite Hs2, skipn_length. unfold len in Lst. lia.
  - rewrite Hs2, skipn_length. unfold len in Lst. lia.
Qed.

Theorem process_new_connection_spec : forall ka s w,
  process_new_connection S0 handler ka s w
  = Ok (serve' (S (length (concat w))) ka s (concat w)).
Proof.
  intros ka s w. unfold process_new_connection.
  assert (Hs : stream_of (repeat 0 (Z.to_nat MAX_REQUEST_SIZE)) 0 w = concat w) by reflexivity.
  rewrite (conn_loop_spec _ ka s (repeat 0 (Z.to_nat MAX_REQUEST_SIZE)) 0 0 w) with (sf := S (length (concat w))).
  - now rewrite Hs.
  - rewrite len_repeat. unfold MAX_REQUEST_SIZE. lia.
  - rewrite len_repeat. unfold MAX_REQUEST_SIZE. lia.
  - rewrite Hs. unfold net_size. lia.
  - rewrite Hs. lia.
Qed.

(** Fuel independence of [serve]. *)
Lemma serve_fuel : forall f1 f2 ka s stream,
  (length stream < f1)%nat -> (length stream < f2)%nat ->
  serve' f1 ka s stream = serve' f2 ka s stream.
Proof.
  induction f1 as [|f1 IH]; intros f2 ka s stream H1 H2; [lia|]. destruct f2 as [|f2]; [lia|].
  cbn [serve]. set (n := get_request_len (firstn (Z.to_nat 16384) stream)).
  destruct (n =? 0) eqn:Ez; [reflexivity|]. destruct (n <? 0) eqn:En; [reflexivity|].
  destruct (req_of_head _) as [rq|]; [|reflexivity].
  destruct (negb (is_valid_uri _)); [reflexivity|].
  destruct (_ && _); [reflexivity|].
  destruct (8192 <? _); [reflexivity|]. destruct (request_content_len rq <? 0) eqn:Ec; [reflexivity|].
  destruct (handler s _) as [s' st]. destruct (should_keep_alive _ _ _ _ _); [|reflexivity].
  pose proof (get_request_len_bounds (firstn (Z.to_nat 16384) stream)) as Hb. fold n in Hb.
  rewrite len_firstn in Hb.
  rewrite (IH f2); [reflexivity| |]; rewrite skipn_length; unfold len in Hb; lia.
Qed.
End Conn.
