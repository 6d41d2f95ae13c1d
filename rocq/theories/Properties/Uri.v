(** C09, C10: operation and path-segment selection.
    Read with Spec/UriPath.v (operation names, contract of the URI parser). *)
From Coq Require Import String ZArith List Bool Lia.
From Verif Require Import Base Model.EstErr Model.Uri Spec.UriPath Proofs.Uri.
Import ListNotations.
Open Scope Z_scope.

(** C09.  A non-empty operation component selects an operation exactly when it
    is that operation's name, ignoring case. *)
Theorem C09_name : forall brski s o, s <> [] ->
  (est_parse_operation brski s = Some o <-> offered brski o /\ same_ignoring_case s (op_name o)).
Proof. exact parse_operation_spec. Qed.
Print Assumptions C09_name.

(** The empty component selects cacerts. *)
Theorem C09_name_refuted : forall brski, est_parse_operation brski [] = Some OP_CACERTS.
Proof. exact parse_operation_empty. Qed.
Print Assumptions C09_name_refuted.

(** Build without uriparser: exactly the documented URIs, nothing else. *)
Theorem C09_plain : forall brski u o,
  est_parse_uri_plain brski u = (EST_ERR_NONE, Some o) <-> offered brski o /\ u = str "/.well-known/est/" ++ op_name o.
Proof. exact parse_uri_plain_spec. Qed.
Print Assumptions C09_plain.

Theorem C09_plain_error : forall brski u e o, est_parse_uri_plain brski u = (e, o) ->
  (e = EST_ERR_NONE /\ o <> None) \/ (e = EST_ERR_HTTP_INVALID_PATH_SEGMENT /\ o = None).
Proof. exact parse_uri_plain_other. Qed.
Print Assumptions C09_plain_error.

(** Build with uriparser: "/.well-known/est/<name>" ([after] is whatever lies in
    memory behind the URI). *)
Theorem C09_uri : forall p brski name o r after, path_parser p ->
  no_nul name -> no_sep name -> name <> [] -> len name <= 128 ->
  p (str "/.well-known/est/" ++ name) = Some r ->
  offered brski o -> same_ignoring_case name (op_name o) ->
  est_parse_uri_full p brski ((str "/.well-known/est/" ++ name) ++ 0 :: after)
  = Ok (EST_ERR_NONE, OpSet (Some o), None).
Proof. exact uri_op. Qed.
Print Assumptions C09_uri.

(** "/.well-known/est/<label><sep><more>", sep one of / ? #: the operation is
    selected by everything after the separator, the label is the path segment,
    and a label that is itself an operation name is refused. *)
Theorem C09_uri_label : forall p brski label c more r after, path_parser p ->
  no_nul (label ++ c :: more) -> no_sep label -> label <> [] -> len label <= 128 -> sep c ->
  p (str "/.well-known/est/" ++ label ++ c :: more) = Some r ->
  est_parse_uri_full p brski ((str "/.well-known/est/" ++ label ++ c :: more) ++ 0 :: after) =
  match est_parse_operation brski label, est_parse_operation brski more with
  | Some _, _ => Ok (EST_ERR_HTTP_INVALID_PATH_SEGMENT, OpSet None, None)
  | None, Some o => Ok (EST_ERR_NONE, OpSet (Some o), Some label)
  | None, None => Ok (EST_ERR_HTTP_BAD_REQ, OpSet None, None)
  end.
Proof. exact uri_label. Qed.
Print Assumptions C09_uri_label.

(** Longer labels, and empty ones, are refused. *)
Theorem C09_uri_bad_label : forall p brski label t r after, path_parser p ->
  no_nul (label ++ t) -> no_sep label -> t = [] \/ (exists c more, t = c :: more /\ sep c) ->
  label = [] \/ 128 < len label ->
  p (str "/.well-known/est/" ++ label ++ t) = Some r ->
  exists o, est_parse_uri_full p brski ((str "/.well-known/est/" ++ label ++ t) ++ 0 :: after)
  = Ok (EST_ERR_HTTP_INVALID_PATH_SEGMENT, o, None).
Proof. exact uri_bad_label. Qed.
Print Assumptions C09_uri_bad_label.

(** What fails in the uriparser build, for every conforming parser: other
    prefixes select operations, "/.well-known/est" dereferences NULL, "/" is
    accepted without any operation, and an unknown single component is followed
    by a look at whatever lies behind the URI in memory. *)
Theorem C09_uri_refuted : forall p brski after, path_parser p ->
  est_parse_uri_full p brski (str "/.well-knownX/establish/cacerts" ++ 0 :: after)
    = Ok (EST_ERR_NONE, OpSet (Some OP_CACERTS), None)
  /\ est_parse_uri_full p brski (str "/.well-known/est" ++ 0 :: after) = UB
  /\ est_parse_uri_full p brski (str "/" ++ 0 :: after) = Ok (EST_ERR_NONE, OpUnset, None)
  /\ est_parse_uri_full p brski (str "/.well-known/est/label" ++ 0 :: str "simpleenroll" ++ 0 :: after)
    = Ok (EST_ERR_NONE, OpSet (Some OP_SIMPLE_ENROLL), Some (str "label")).
Proof. exact uri_refuted. Qed.
Print Assumptions C09_uri_refuted.

Example C09_parser_exists : path_parser rfc_path_parser.
Proof. exact rfc_path_parser_ok. Qed.
Example C09_case :
  est_parse_uri_full rfc_path_parser true (str "/.well-known/est/myCA/SimpleEnroll" ++ [0])
  = Ok (EST_ERR_NONE, OpSet (Some OP_SIMPLE_ENROLL), Some (str "myCA"))
  /\ est_parse_uri_plain false (str "/.well-known/est/csrattrs") = (EST_ERR_NONE, Some OP_CSRATTRS)
  /\ est_parse_uri_plain false (str "/.well-known/est/requestvoucher") = (EST_ERR_HTTP_INVALID_PATH_SEGMENT, None).
Proof. vm_compute. repeat split. Qed.

(** C10.  Setting a path segment (client or proxy API) either stores exactly the
    given text, NUL-terminated, and the text is a single non-empty URI segment
    of at most 128 characters that is no operation name; or it is refused and
    the previous segment is kept.  No input makes it misbehave. *)
Theorem C10_set : forall p brski, path_parser p -> forall old ps, no_nul ps ->
  let good := 1 <= len ps <= 128 /\ no_sep ps
              /\ (forall o, offered brski o -> ~ same_ignoring_case ps (op_name o))
              /\ p (str "/.well-known/est/" ++ ps) <> None in
  set_path_segment p brski old (Some ps) = Ok (EST_ERR_NONE, Some (ps ++ [0])) /\ good
  \/ set_path_segment p brski old (Some ps) = Ok (EST_ERR_HTTP_INVALID_PATH_SEGMENT, old) /\ ~ good.
Proof. exact (fun p b Hp => set_path_segment_spec p Hp b). Qed.
Print Assumptions C10_set.

(** The store itself is safe exactly when the length argument does not exceed
    the text (its callers pass the length of the text). *)
Theorem C10_store : forall ps n, 0 <= n -> (is_ok (est_store_path_segment ps n) <-> n <= len ps).
Proof. exact store_safe. Qed.
Print Assumptions C10_store.

Theorem C10_store_exact : forall ps, est_store_path_segment ps (len ps) = Ok (EST_ERR_NONE, ps ++ [0]).
Proof. exact store_spec. Qed.
Print Assumptions C10_store_exact.

(** A segment taken from a request URI is also never an operation name. *)
Theorem C10_request : forall p brski label c more r after o ps, path_parser p ->
  no_nul (label ++ c :: more) -> no_sep label -> sep c ->
  p (str "/.well-known/est/" ++ label ++ c :: more) = Some r ->
  est_parse_uri_full p brski ((str "/.well-known/est/" ++ label ++ c :: more) ++ 0 :: after) = Ok (EST_ERR_NONE, o, Some ps) ->
  ps = label /\ 1 <= len ps <= 128 /\ forall o', offered brski o' -> ~ same_ignoring_case ps (op_name o').
Proof. exact uri_request_seg. Qed.
Print Assumptions C10_request.

Example C10_case :
  set_path_segment rfc_path_parser false None (Some (str "factory-7")) = Ok (EST_ERR_NONE, Some (str "factory-7" ++ [0]))
  /\ set_path_segment rfc_path_parser false None (Some (str "CaCerts")) = Ok (EST_ERR_HTTP_INVALID_PATH_SEGMENT, None)
  /\ set_path_segment rfc_path_parser false None (Some (str "a/b")) = Ok (EST_ERR_HTTP_INVALID_PATH_SEGMENT, None).
Proof. vm_compute. repeat split. Qed.
