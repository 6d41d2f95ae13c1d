(** Model of the CSR attribute handling of /repo/src/est/est.c and
    /repo/src/est/est_server.c. *)
From Coq Require Import String ZArith List Bool.
From Verif Require Import Base Model.EstErr Model.Codec Spec.Der.
Import ListNotations.
Open Scope Z_scope.

(** The content of an OBJECT IDENTIFIER as d2i_ASN1_OBJECT takes it: est.c:1221
    est_c2i_ASN1_OBJECT is the library's copy of the check (disabled in favour
    of OpenSSL's own, which is the same): not empty, top bit of the last octet
    clear, no octet 0x80 at the start of a subidentifier. *)
Fixpoint no_leading_80 (inside : bool) (c : bytes) : bool :=
  match c with
  | [] => true
  | b :: t => negb ((b =? 128) && negb inside) && no_leading_80 (128 <=? b) t
  end.
Definition d2i_oid (c : bytes) : bool :=
  match c with [] => false | _ => (nth (length c - 1) c 0 <? 128) && no_leading_80 false c end.

(** NID_pkcs9_challengePassword: OBJ_obj2nid compares the content octets. *)
Definition chpw_oid : bytes := [42; 134; 72; 134; 247; 13; 1; 9; 7].
(** est.c:47 hex_chpw *)
Definition hex_chpw : bytes := [6; 9; 42; 134; 72; 134; 247; 13; 1; 9; 7].

Section Attrs.
(** ASN1_get_object (external, OpenSSL) on the bytes it is allowed to look at:
    [None] is a result with bit 0x80.  *)
Variable G : bytes -> option header.
(** BIO_read through a base64 filter (external, OpenSSL). *)
Variable bio : bool -> bytes -> Z -> bytes.
(** OBJ_obj2txt (external, OpenSSL): the name of an OBJECT IDENTIFIER. *)
Variable oid_text : bytes -> bytes.

(** ** est.c:1307-1374 est_asn1_sanity_test: the loop.  [p] is the rest of the
    data, whose length is out_len: ASN1_get_object never reports an element
    longer than it was allowed to look at, so out_len is never negative and the
    test of line 1367 never fires.  d2i_ASN1_OBJECT reads the same header
    again, so it is modelled on the content.  The tag alone is looked at, not
    the class.  [n] is fuel.  [None] is EST_ERR_BAD_ASN1_HEX. *)
Fixpoint sanity_loop (n : nat) (p : bytes) (pop : bool) : res (option bool) :=
  match n with
  | O => UB
  | S n' =>
    match p with
    | [] => Ok (Some pop)
    | _ =>
      match G p with
      | None => Ok None
      | Some h =>
        let q := skipn (Z.to_nat (h_octets h)) p in
        let c := firstn (Z.to_nat (h_len h)) q in
        let q' := skipn (Z.to_nat (h_len h)) q in
        if h_tag h =? 6 then
          if d2i_oid c then sanity_loop n' q' (pop || beq c chpw_oid) else sanity_loop n' q pop
        else if (h_tag h =? 17) || (h_tag h =? 16) then sanity_loop n' q pop
        else sanity_loop n' q' pop
      end
    end
  end.
(** Result: error and pop_present.  MIN_ASN1_CSRATTRS 2, MAX_CSRATTRS 1024,
    MAX_CSRATTRS_WITHPOP 1035 (est.h). *)
Definition est_asn1_sanity_test (der : bytes) : res (est_error * bool) :=
  if len der <? 2 then Ok (EST_ERR_BAD_ASN1_HEX_TOO_SHORT, false)
  else
    r <- sanity_loop (S (length der)) der false ;;
    match r with
    | None => Ok (EST_ERR_BAD_ASN1_HEX, false)
    | Some pop => if (if pop then 1035 else 1024) <? len der then Ok (EST_ERR_BAD_ASN1_HEX_TOO_LONG, pop)
                  else Ok (EST_ERR_NONE, pop)
    end.

(** ** est.c:1404-1438 est_asn1_parse_attributes.  [s] is the C string, [len s]
    the length argument (the callers pass the string's length). MIN_CSRATTRS is
    4.  Allocation failures are not modelled. *)
Definition est_asn1_parse_attributes (s : bytes) : res (est_error * bool) :=
  if len s <? 4 then Ok (EST_ERR_INVALID_PARAMETERS, false)
  else
    ' (n, der) <- est_base64_decode bio false s (len s * 2) ;;
    if n <=? 0 then Ok (EST_ERR_BAD_BASE64, false)
    else est_asn1_sanity_test der.

(** ** est.c:1384-1396 est_is_challengePassword_present; [None] is NULL. *)
Definition est_is_challengePassword_present (s : option bytes) : res (est_error * bool) :=
  match s with
  | None | Some [] => Ok (EST_ERR_NONE, false)
  | Some s => est_asn1_parse_attributes s
  end.

(** ** est.c:1448-1555 est_add_challengePassword.  The result of
    ASN1_get_object is ignored: when it fails the tag is indeterminate, [UB]
    (OpenSSL sets it in the one failure case "too long"; not modelled).  The
    two-octet length is stored in chars, so it is taken modulo 65536. *)
Definition sequence_header (n : Z) : bytes :=
  if 256 <=? n then [48; 130; n / 256 mod 256; n mod 256]
  else if 128 <=? n then [48; 129; n]
  else [48; n].
Definition est_add_challengePassword (s : bytes) : res (est_error * bytes) :=
  ' (n, der) <- est_base64_decode bio false s (len s * 2) ;;
  if n <=? 0 then Ok (EST_ERR_MALLOC, [])
  else
    match G der with
    | None => UB
    | Some h =>
      if negb (h_tag h =? 16) then Ok (EST_ERR_BAD_ASN1_HEX, [])
      else
        let content := skipn (Z.to_nat (h_octets h)) der in
        let new_der := sequence_header (len content + 11) ++ content ++ hex_chpw in
        ' (e, blk) <- est_base64_encode new_der (repeat 0 (2 * length new_der)) (len new_der * 2) false ;;
        if e <=? 0 then Ok (EST_ERR_BAD_BASE64, [])
        else t <- cstr blk ;; Ok (EST_ERR_NONE, t)
    end.

(** ** est_server.c:1248-1337 est_server_csr_asn1_parse.  [p] is the data from
    ptr to the end of the decoded request, [left] is tot - ptr, [length] the
    variable of that name, the amount ASN1_get_object is told it may look at;
    looking beyond the data is [UB].  [op < ptr] always holds, since a header has
    octets.  The return value is 0 (error), 1, or 2 (end-of-contents marker).
    [n] is fuel. *)
Definition get_object (p : bytes) (omax : Z) : res (option header) :=
  if omax <=? len p then Ok (G (firstn (Z.to_nat omax) p)) else UB.
Fixpoint csr_asn1_parse (n : nat) (acc : list bytes) (p : bytes) (left length : Z) {struct n}
  : res (Z * list bytes * bytes) :=
  match n with
  | O => UB
  | S n' =>
    if left <=? 0 then Ok (1, acc, p)
    else
      g <- get_object p length ;;
      match g with
      | None => Ok (0, acc, p)
      | Some h =>
        let q := skipn (Z.to_nat (h_octets h)) p in
        let left1 := left - h_octets h in
        let length1 := length - h_octets h in
        let c := firstn (Z.to_nat (h_len h)) q in
        let q' := skipn (Z.to_nat (h_len h)) q in
        let left2 := left1 - h_len h in
        let length2 := length1 - h_len h in
        if h_cons h then
          if length1 <? h_len h then Ok (0, acc, q)
          else if h_indef h && (h_len h =? 0) then
            ' (r, acc1, q1) <- csr_asn1_parse n' acc q left1 left1 ;;
            if r =? 0 then Ok (0, acc1, q1)
            else if (r =? 2) || (left1 - (len q - len q1) <=? 0) then Ok (1, acc1, q1)
            else csr_asn1_parse n' acc1 q1 (left1 - (len q - len q1)) length2
          else
            ' (r, acc1, q1) <- csr_asn1_inner n' acc q (h_len h) (h_len h) ;;
            if r =? 0 then Ok (0, acc1, q1)
            else csr_asn1_parse n' acc1 q1 (left1 - (len q - len q1)) length2
        else if negb (h_class h =? 0) then csr_asn1_parse n' acc q' left2 length2
        else if h_tag h =? 6 then
          if d2i_oid c then csr_asn1_parse n' (acc ++ [c]) q' left2 length2
          else Ok (0, acc, q)
        else if h_tag h =? 0 then Ok (2, acc, q')
        else csr_asn1_parse n' acc q' left2 length2
      end
  end
(** lines 1288-1295: while (ptr < ep); [left] is ep - ptr, [elen] the variable
    len. *)
with csr_asn1_inner (n : nat) (acc : list bytes) (p : bytes) (left elen : Z) {struct n}
  : res (Z * list bytes * bytes) :=
  match n with
  | O => UB
  | S n' =>
    if left <=? 0 then Ok (1, acc, p)
    else
      ' (r, acc1, q) <- csr_asn1_parse n' acc p elen elen ;;
      if r =? 0 then Ok (0, acc1, q)
      else csr_asn1_inner n' acc1 q (left - (len p - len q)) elen
  end.

(** ** est_server.c:1344-1379 est_server_build_csr_oid_list *)
Definition est_server_build_csr_oid_list (body : bytes) : res (est_error * list bytes) :=
  ' (n, der) <- est_base64_decode bio false body (len body * 2) ;;
  if n <=? 0 then Ok (EST_ERR_BAD_BASE64, [])
  else
    ' (r, l, _) <- csr_asn1_parse (2 * length der + 2) [] der (len der) (len der) ;;
    if r =? 0 then Ok (EST_ERR_UNKNOWN, []) else Ok (EST_ERR_NONE, l).

(** i2t_ASN1_OBJECT into a buffer of EST_MAX_ATTR_LEN (128) characters. *)
Definition attr_text (c : bytes) : bytes := firstn 127 (oid_text c).

(** ** est_server.c:1386-1624 est_server_all_csrattrs_present: the loop over the
    server's attributes (lines 1514-1603). *)
Fixpoint attrs_loop (n : nat) (p : bytes) (csr : list bytes) : res est_error :=
  match n with
  | O => UB
  | S n' =>
    match p with
    | [] => Ok EST_ERR_NONE
    | _ =>
      match G p with
      | None => Ok EST_ERR_BAD_ASN1_HEX
      | Some h =>
        let q := skipn (Z.to_nat (h_octets h)) p in
        let c := firstn (Z.to_nat (h_len h)) q in
        let q' := skipn (Z.to_nat (h_len h)) q in
        if h_tag h =? 6 then
          if negb (d2i_oid c) then Ok EST_ERR_UNKNOWN
          else if beq c chpw_oid then attrs_loop n' q' csr
          else if existsb (fun o => beq (attr_text o) (attr_text c)) csr then attrs_loop n' q' csr
          else Ok EST_ERR_CSR_ATTR_MISSING
        else if (h_tag h =? 17) || (h_tag h =? 16) then attrs_loop n' q csr
        else attrs_loop n' q' csr
      end
    end
  end.
(** [attrs]: the attribute list, [None] if the application returned NULL.
    The split in two parts is explained in Model/Server.v. *)
Definition all_attrs_check (attrs : option (option bytes)) (body : bytes) : res est_error :=
  ' (e, csr) <- est_server_build_csr_oid_list body ;;
  match e with
  | EST_ERR_NONE =>
    match attrs with
    | None => Ok EST_ERR_NONE
    | Some None => Ok EST_ERR_CB_FAILED
    | Some (Some s) =>
      if len s <? 4 then Ok EST_ERR_INVALID_PARAMETERS
      else
        ' (n, der) <- est_base64_decode bio false s (len s * 2) ;;
        if n <=? 0 then Ok EST_ERR_BAD_BASE64
        else if 1024 <? len der then Ok EST_ERR_INVALID_PARAMETERS
        else if len der <? 2 then Ok EST_ERR_INVALID_PARAMETERS
        else attrs_loop (S (length der)) der csr
    end
  | _ => Ok e
  end.

(** ** est_server.c:4042-4132 est_server_init_csrattrs on a server context:
    (return code, stored attributes).  The old attributes are gone in any
    case. *)
Definition est_server_init_csrattrs (pop : bool) (attrs : option bytes) : res (est_error * option bytes) :=
  match attrs with
  | None => Ok (EST_ERR_NONE, None)
  | Some s =>
    if len s <? 4 then Ok (EST_ERR_INVALID_PARAMETERS, None)
    else
      ' (e, present) <- est_asn1_parse_attributes s ;;
      match e with
      | EST_ERR_NONE =>
        if pop && negb present then
          ' (e2, s2) <- est_add_challengePassword s ;;
          match e2 with EST_ERR_NONE => Ok (EST_ERR_NONE, Some s2) | _ => Ok (EST_ERR_INVALID_PARAMETERS, None) end
        else Ok (EST_ERR_NONE, Some s)
      | _ => Ok (EST_ERR_INVALID_PARAMETERS, None)
      end
  end.
End Attrs.
