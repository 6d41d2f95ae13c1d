(** Specification vocabulary for multipart/mixed key generation responses
    (RFC 7030 section 4.4.2, RFC 2046 section 5.1). *)
From Coq Require Import String ZArith List Bool.
From Verif Require Import Base Spec.Http Spec.Client.
Import ListNotations.
Open Scope Z_scope.

Definition starts (p s : bytes) : Prop := exists t, s = p ++ t.
Definition occurs (x s : bytes) : Prop := exists a b, s = a ++ x ++ b.

(** A boundary string: 1 to [k] of the characters RFC 2046 allows, not ending
    with a space. *)
Definition boundary_chars : bytes :=
  str "0123456789ABCDEFGHIJKLMNOPQRSTUVWXYZabcdefghijklmnopqrstuvwxyz'()+_,-./:=? ".
Definition boundary_string (k : Z) (b : bytes) : Prop :=
  1 <= len b <= k /\ Forall (fun c => In c boundary_chars) b /\ last b 0 <> 32.

(** The value of the Content-Type header that announces boundary [b]: plain or
    quoted, perhaps followed by spaces and by further parameters. *)
Definition announces (v b : bytes) : Prop :=
  exists x sp rest, v = str "multipart/mixed; boundary=" ++ x ++ sp ++ rest
    /\ (x = b \/ x = 34 :: b ++ [34]) /\ Forall (fun c => c = 32) sp /\ (rest = [] \/ hd 0 rest = 59).

(** Every header that mentions "multipart" announces [B], and there is one. *)
Definition announced (hs : list (bytes * bytes)) (B : bytes) : Prop :=
  Forall (fun h => occurs (str "multipart") (snd h) -> announces (snd h) B) hs /\ Exists (fun h => announces (snd h) B) hs.
(** The headers of a part: at most sixteen lines; names of letters and hyphens
    (up to 64, starting with a letter); the content type starts with [ct] and
    the transfer encoding with base64, whatever else is there and in any order. *)
Definition letter (c : Z) : Prop := 65 <= c <= 90 \/ 97 <= c <= 122.
Definition part_header (h : bytes * bytes) : Prop :=
  1 <= len (fst h) <= 64 /\ letter (hd 0 (fst h)) /\ Forall (fun c => letter c \/ c = 45) (fst h)
  /\ ~ In 13 (snd h) /\ ~ In 0 (snd h) /\ hd 0 (snd h) <> 32.
Definition part_headers (ct : bytes) (hs : list (bytes * bytes)) : Prop :=
  len hs <= 16 /\ Forall part_header hs
  /\ Exists (fun h => fst h = str "Content-Type") hs /\ Exists (fun h => fst h = str "Content-Transfer-Encoding") hs
  /\ Forall (fun h => starts (str "Content-Type") (fst h) -> starts ct (snd h)) hs
  /\ Forall (fun h => starts (str "Content-Transfer-Encoding") (fst h) -> starts (str "base64") (snd h)) hs.

(** Base64 text, or anything else without a hyphen or a NUL, that is not blank. *)
Definition part_text (d : bytes) : Prop := ~ In 45 d /\ ~ In 0 d /\ Exists (fun c => c <> 32 /\ c <> 13 /\ c <> 10) d.

(** One part: delimiter, headers, an empty line, the content. *)
Definition render_part (b : bytes) (hs : list (bytes * bytes)) (d : bytes) : bytes :=
  str "--" ++ b ++ CRLF ++ concat (map render_header hs) ++ CRLF ++ d ++ CRLF.

Definition key_type : bytes := str "application/pkcs8".
Definition cert_type : bytes := str "application/pkcs7-mime; smime-type=certs-only".

(** A body that carries [key] and [cert], in either order; a preamble may come
    before the first delimiter and an epilogue after the last. *)
Definition two_parts (b key cert body : bytes) : Prop :=
  exists pre hs1 d1 hs2 d2 post,
    body = pre ++ render_part b hs1 d1 ++ render_part b hs2 d2 ++ str "--" ++ b ++ str "--" ++ post
    /\ ~ In 0 pre /\ (forall x y, pre ++ str "--" ++ b = x ++ b ++ y -> y = [])
    /\ ((part_headers key_type hs1 /\ d1 = key /\ part_headers cert_type hs2 /\ d2 = cert)
        \/ (part_headers cert_type hs1 /\ d1 = cert /\ part_headers key_type hs2 /\ d2 = key)).

(** A line [name…: value…] occurs in [r]. *)
Definition header_in (r name value : bytes) : Prop :=
  exists x nm sp v y, r = x ++ nm ++ 58 :: sp ++ v ++ y /\ starts name nm /\ Forall (fun c => c = 32) sp /\ starts value v.
(** [d] is content in [r]: after an empty line and headers that give it the type
    [ct] in base64, and up to a line end before a hyphen, or to the end, which
    is at [e]. *)
Definition content (r : bytes) (e : Z) (ct d : bytes) : Prop :=
  exists x y, r = x ++ CRLF ++ d ++ y /\ 1 <= len d <= 8192 /\ Exists (fun c => c <> 32 /\ c <> 13 /\ c <> 10) d
    /\ header_in x (str "Content-Type") ct /\ header_in x (str "Content-Transfer-Encoding") (str "base64")
    /\ len x + 2 + len d <= e
    /\ (len x + 2 + len d = e \/ exists z, y = 13 :: 45 :: z \/ exists c, y = 13 :: c :: 45 :: z).
(** The byte left behind a stored header value is none of the characters it is
    compared with (a zero, for instance). *)
Definition harmless (junk : bytes -> Z) : Prop := forall v, ~ In (junk v) (key_type ++ cert_type ++ str "base64").
Definition colons (r : bytes) : Z := len (filter (fun c => c =? 58) r).
