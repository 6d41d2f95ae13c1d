(** Specification vocabulary for HTTP request framing and parsing.  It does not
    use the model. *)
From Coq Require Import String ZArith List Bool.
From Verif Require Import Base.
Import ListNotations.
Open Scope Z_scope.

(** Bytes allowed in a request head: printable ASCII, CR, LF, and 128..255. *)
Definition head_byte (c : Z) : Prop := (32 <= c <= 126) \/ c = 13 \/ c = 10 \/ 128 <= c.

(** [p] ends with an empty line (a LF directly followed by LF or CR LF). *)
Definition ends_empty_line (p : bytes) : Prop :=
  exists x, p = x ++ [10; 10] \/ p = x ++ [10; 13; 10].

(** The first [n] bytes of [l] are a complete request head. *)
Definition complete_head (l : bytes) (n : Z) : Prop :=
  0 < n <= len l
  /\ Forall head_byte (firstn (Z.to_nat n) l)
  /\ ends_empty_line (firstn (Z.to_nat n) l)
  /\ forall k, 0 <= k < n -> ~ ends_empty_line (firstn (Z.to_nat k) l).

(** [l] starts with a malformed head: a forbidden byte occurs before any empty
    line has been completed, and it is not the last byte received. *)
Definition malformed_head (l : bytes) : Prop :=
  exists i, 0 <= i < len l - 1
  /\ ~ head_byte (nth (Z.to_nat i) l 0)
  /\ (forall k, 0 <= k <= i -> ~ ends_empty_line (firstn (Z.to_nat k) l)).

(** [t] occurs contiguously in [l]. *)
Definition sub_bytes (t l : bytes) : Prop := exists a b, l = a ++ t ++ b.

(** A well-formed request as a client would write it. *)
Definition CRLF : bytes := [13; 10].
Definition render_header (h : bytes * bytes) : bytes := fst h ++ str ": " ++ snd h ++ CRLF.
Definition render_head (meth uri version : bytes) (hs : list (bytes * bytes)) : bytes :=
  meth ++ str " " ++ uri ++ str " " ++ version ++ CRLF
  ++ concat (map render_header hs) ++ CRLF.

(** Non-empty strings without white space / control characters. *)
Definition token_byte (c : Z) : Prop := 33 <= c <= 126.
Definition token (s : bytes) : Prop := s <> [] /\ Forall token_byte s.
Definition header_name (s : bytes) : Prop := token s /\ ~ In 58 s.
(** Header values: printable, no CR/LF, no leading space. *)
Definition header_value (s : bytes) : Prop :=
  Forall (fun c => 32 <= c <= 126) s /\ hd 0 s <> 32.

(** Uniform lower-casing of ASCII, and equality up to ASCII case. *)
Definition case_eq (a b : bytes) : Prop := map tolower a = map tolower b.

(** The first header called [name] (up to case) is [v]. *)
Definition first_header (hs : list (bytes * bytes)) (name v : bytes) : Prop :=
  exists h1 n h2, hs = h1 ++ (n, v) :: h2 /\ case_eq n name
                  /\ Forall (fun h => ~ case_eq (fst h) name) h1.
Definition no_header (hs : list (bytes * bytes)) (name : bytes) : Prop :=
  Forall (fun h => ~ case_eq (fst h) name) hs.

(** [v] is the decimal numeral of [n]. *)
Definition decimal (v : bytes) (n : Z) : Prop :=
  v <> [] /\ Forall (fun c => 48 <= c <= 57) v
  /\ n = fold_left (fun a c => 10 * a + (c - 48)) v 0.

(** [v] is [u] up to (not including) the first [c]. *)
Definition cut_at (c : Z) (u v : bytes) : Prop :=
  ~ In c v /\ (u = v \/ exists t, u = v ++ c :: t).

(** A request the protocol allows: GET or POST, HTTP/1.0 or 1.1, absolute path,
    well-formed headers, and a body whose length is the announced one. *)
Definition allowed_request (meth uri ver : bytes) (hs : list (bytes * bytes)) (body : bytes) : Prop :=
  (meth = str "GET" \/ meth = str "POST")
  /\ token uri /\ (hd 0 uri = 47 \/ uri = str "*")
  /\ (ver = str "HTTP/1.0" \/ ver = str "HTTP/1.1")
  /\ len hs <= 64
  /\ Forall (fun h => header_name (fst h) /\ header_value (snd h)) hs
  /\ len (render_head meth uri ver hs) <= 16384
  /\ ((body = [] /\ meth = str "GET" /\ no_header hs (str "Content-Length"))
      \/ (exists v, first_header hs (str "Content-Length") v /\ decimal v (len body)
                    /\ len body <= 8192)).

(** When the connection stays open after a response with status [st]. *)
Definition stays_open (ka : bool) (st : Z) (hs : list (bytes * bytes)) (ver : bytes) : Prop :=
  ka = true /\ st <> 202 /\ st < 400
  /\ ((exists v, first_header hs (str "Connection") v /\ case_eq v (str "keep-alive"))
      \/ (no_header hs (str "Connection") /\ ver = str "HTTP/1.1")).
