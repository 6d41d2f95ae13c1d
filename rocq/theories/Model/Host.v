(** The client's check of the server's name (est_client.c:2272-2755). *)
From Coq Require Import String ZArith List Bool.
From Verif Require Import Base Model.EstErr.
Import ListNotations.
Open Scope Z_scope.

(** est_client.c:2282-2339 est_client_Curl_raw_toupper: the switch maps the 26
    letters a-z to A-Z. *)
Definition raw_toupper (c : Z) : Z := if (97 <=? c) && (c <=? 122) then c - 32 else c.

(** est_client.c:2353-2367 est_client_Curl_raw_equal, on C strings (without
    their NUL). *)
Fixpoint raw_equal (a b : bytes) : bool :=
  match a, b with
  | x :: a', y :: b' => if negb (raw_toupper x =? raw_toupper y) then false else raw_equal a' b'
  | [], [] => true
  | _, _ => false
  end.
(** est_client.c:2369-2384 est_client_Curl_raw_nequal *)
Fixpoint raw_nequal (a b : bytes) (max : nat) {struct max} : bool :=
  match max with
  | O => true
  | S m =>
    match a, b with
    | x :: a', y :: b' => if negb (raw_toupper x =? raw_toupper y) then false else raw_nequal a' b' m
    | [], [] => true
    | _, _ => false
    end
  end.

(** strchr: the offset of the first [c]. *)
Fixpoint strchr (s : bytes) (c : Z) : option nat :=
  match s with
  | [] => None
  | x :: t => if x =? c then Some O else option_map S (strchr t c)
  end.

Section Pton.
(** inet_pton for AF_INET and AF_INET6: the address (4, 16 octets) if the text
    is one. *)
Variables pton4 pton6 : bytes -> option bytes.

Definition is_some {A} (o : option A) : bool := match o with Some _ => true | None => false end.

(** est_client.c:2398-2444 est_client_hostmatch *)
Definition est_client_hostmatch (hostname pattern : bytes) : bool :=
  match strchr pattern 42 with
  | None => raw_equal pattern hostname
  | Some wild =>
    if is_some (pton4 hostname) then false
    else if is_some (pton6 hostname) then false
    else
      let enabled :=
        match strchr pattern 46 with
        | None => None
        | Some e =>
          if negb (is_some (strchr (skipn (e + 1) pattern) 46)) || (e <? wild)%nat || raw_nequal pattern (str "xn--") 4
          then None else Some e
        end in
      match enabled with
      | None => raw_equal pattern hostname
      | Some e =>
        match strchr hostname 46 with
        | None => false
        | Some h =>
          if negb (raw_equal (skipn e pattern) (skipn h hostname)) then false
          else if (h <? e)%nat then false
          else
            let suffixlen := (e - (wild + 1))%nat in
            raw_nequal pattern hostname wild
            && raw_nequal (skipn (wild + 1) pattern) (skipn (h - suffixlen) hostname) suffixlen
        end
      end
  end.

(** est_client.c:2450-2470 est_client_cert_hostcheck *)
Definition est_client_cert_hostcheck (match_pattern hostname : bytes) : bool :=
  match match_pattern, hostname with
  | [], _ | _, [] => false
  | _, _ => if raw_equal hostname match_pattern then true else est_client_hostmatch hostname match_pattern
  end.

(** A subject alternative name: the contents of a dNSName, of an iPAddress, or
    any other kind (of which the code also reads data and length, but does not
    use them: not modelled). *)
Inductive general_name := DNS (d : bytes) | IPADD (d : bytes) | OtherName.

(** A C string ends at the first NUL; ASN1 strings are followed by one. *)
Definition upto_nul (d : bytes) : bytes := take_while (fun c => negb (c =? 0)) d.
(** safe_str_stub.c:423-428 strnlen_s *)
Definition strnlen_s (d : bytes) (max : Z) : Z := Z.min (len (upto_nul d)) max.

(** est_client.c:2522-2537: the address of the host, if it is one. *)
Definition host_address (hostname : bytes) : option bytes :=
  match pton4 hostname with Some a => Some a | None => pton6 hostname end.

(** est_client.c:2550-2623: the loop over the names; [matched] is -1, 0 or 1.
    memcmp_s compares altlen octets of the host's address, which has 4 or 16:
    [UB] if there are fewer.  For an empty name it leaves diff unset, which is
    not read then. *)
Fixpoint alt_loop (hostname : bytes) (names : list general_name) (matched : Z) : res Z :=
  match names with
  | [] => Ok matched
  | n :: r =>
    m <- match n with
         | DNS d =>
           Ok (if (len d =? strnlen_s d 255) && est_client_cert_hostcheck (upto_nul d) hostname then 1 else 0)
         | IPADD d =>
           match host_address hostname with
           | None => Ok 0
           | Some a =>
             if len a <? len d then UB
             else Ok (if (len d =? len a) && beq d (firstn (length d) a) then 1 else 0)
           end
         | OtherName => Ok matched
         end ;;
    if m =? 1 then Ok 1 else alt_loop hostname r m
  end.

(** est_client.c:2498-2721 est_client_verifyhost.  [alts]: the subject
    alternative names, if there is that extension; [cns]: the common names of
    the subject as UTF-8 (None: cannot be converted).  malloc does not fail. *)
Definition est_client_verifyhost (hostname : bytes) (alts : option (list general_name)) (cns : list (option bytes)) : res est_error :=
  matched <- match alts with Some l => alt_loop hostname l (-1) | None => Ok (-1) end ;;
  if matched =? 1 then Ok EST_ERR_NONE
  else if matched =? 0 then Ok EST_ERR_FQDN_MISMATCH
  else
    match last cns None with
    | None => Ok EST_ERR_FQDN_MISMATCH
    | Some cn =>
      if negb (strnlen_s cn 255 =? len cn) then Ok EST_ERR_FQDN_MISMATCH
      else if negb (est_client_cert_hostcheck (upto_nul cn) hostname) then Ok EST_ERR_FQDN_MISMATCH
      else Ok EST_ERR_NONE
    end.

(** est_client.c:2737-2755 est_client_check_fqdn.  [cert]: the names in the
    peer's certificate, if it sent one; [srp]: enable_srp. *)
Definition est_client_check_fqdn (est_server : bytes) (srp : bool) (cert : option (option (list general_name) * list (option bytes))) : res est_error :=
  match cert with
  | Some (alts, cns) => est_client_verifyhost est_server alts cns
  | None => if srp then Ok EST_ERR_NONE else Ok EST_ERR_FQDN_MISMATCH
  end.
End Pton.
