(** What an EST request URI is (RFC 7030 section 3.2.2) and what a URI parser
    must deliver for a path (RFC 3986 section 3.3). *)
From Coq Require Import String ZArith List Bool.
From Verif Require Import Base Model.Uri.
Import ListNotations.
Open Scope Z_scope.

(** Operation names. *)
Definition op_name (o : operation) : bytes :=
  str match o with
      | OP_CACERTS => "cacerts" | OP_CSRATTRS => "csrattrs"
      | OP_SIMPLE_ENROLL => "simpleenroll" | OP_SIMPLE_REENROLL => "simplereenroll"
      | OP_SERVER_KEYGEN => "serverkeygen"
      | OP_BRSKI_REQ_VOUCHER => "requestvoucher" | OP_BRSKI_VOUCHER_STATUS => "voucher_status"
      | OP_BRSKI_ENROLL_STATUS => "enrollstatus"
      end%string.
Definition is_brski (o : operation) : bool :=
  match o with
  | OP_BRSKI_REQ_VOUCHER | OP_BRSKI_VOUCHER_STATUS | OP_BRSKI_ENROLL_STATUS => true
  | _ => false
  end.
(** Operations a build offers. *)
Definition offered (brski : bool) (o : operation) : Prop := is_brski o = true -> brski = true.

(** Equality ignoring ASCII case. *)
Definition same_ignoring_case (a b : bytes) : Prop := map tolower a = map tolower b.

Definition est_prefix : bytes := str "/.well-known/est/".

(** RFC 3986: pchar without percent-encoding. *)
Definition pchar (c : Z) : Prop :=
  isalnum c = true \/ In c (str "-._~!$&'()*+,;=:@").

(** Offsets of the segments of "/s1/s2/.../sn". *)
Fixpoint seg_ranges (off : Z) (segs : list bytes) : list (Z * Z) :=
  match segs with
  | [] => []
  | s :: t => (off, off + len s) :: seg_ranges (off + len s + 1) t
  end.
Definition path_text (segs : list bytes) : bytes := flat_map (fun s => 47 :: s) segs.

(** End of the path: end of text, or a query or fragment. *)
Definition sep (c : Z) : Prop := c = 47 \/ c = 63 \/ c = 35.
Definition no_sep (s : bytes) : Prop := ~ In 47 s /\ ~ In 63 s /\ ~ In 35 s.
Definition path_end (rest : bytes) : Prop := rest = [] \/ exists c t, rest = c :: t /\ (c = 63 \/ c = 35).

(** Contract of the external URI parser for absolute paths whose first segment
    is not empty: on success it reports exactly the segments; it succeeds if
    only plain path characters occur; "/" has no segments. *)
Record path_parser (p : bytes -> option (list (Z * Z))) : Prop := {
  pp_exact : forall segs rest r,
    segs <> [] -> hd [] segs <> [] ->
    (forall s, In s segs -> no_sep s) ->
    path_end rest ->
    p (path_text segs ++ rest) = Some r -> r = seg_ranges 1 segs;
  pp_accepts : forall segs,
    segs <> [] -> hd [] segs <> [] ->
    (forall s, In s segs -> Forall pchar s) ->
    exists r, p (path_text segs) = Some r;
  pp_root : p [47] = Some [];
}.
