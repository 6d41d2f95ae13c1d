(** Specification of HTTP credentials: what a client must put into an
    Authorization header and what a server must read from one.  No model
    imports. *)
From Coq Require Import String ZArith List Bool.
From Verif Require Import Base Spec.Base64.
Import ListNotations.
Open Scope Z_scope.

(** RFC 7617 / RFC 6750 header values (the token is base64 coded by libest). *)
Definition basic_value (user pwd : bytes) : bytes := str "Basic " ++ b64_encode (user ++ str ":" ++ pwd).
Definition bearer_value (token : bytes) : bytes := str "Bearer " ++ b64_encode token.

(** Two C strings of at most [n] characters. *)
Definition c_str_max (n : Z) (s : bytes) : Prop := c_string s /\ len s <= n.

(** A quoted string, from after its opening quote: backslash quote stands for a
    quote; a final lone backslash is dropped.  Result: contents, and what
    follows the closing quote if there is one. *)
Fixpoint q_split (s : bytes) : bytes * option bytes :=
  match s with
  | [] => ([], None)
  | c :: t =>
    if c =? 34 then ([], Some t)
    else if c =? 92 then
      match t with
      | [] => ([], None)
      | d :: u => if d =? 34 then (34 :: fst (q_split u), snd (q_split u))
                  else (92 :: fst (q_split t), snd (q_split t))
      end
    else (c :: fst (q_split t), snd (q_split t))
  end.

(** Up to the first of the delimiters / after it and the spaces that follow. *)
Definition until (ds s : bytes) : bytes := take_while (fun c => negb (memb c ds)) s.
Definition past (ds s : bytes) : bytes :=
  match drop_while (fun c => negb (memb c ds)) s with
  | [] => []
  | _ :: t => drop_while (fun c => memb c [32]) t
  end.

(** One name=value pair: (name, value, what follows). *)
Definition digest_pair (s : bytes) : bytes * bytes * bytes :=
  let r := past (str "=") s in
  match r with
  | c :: t =>
    if c =? 34 then
      let rest := match snd (q_split t) with
                  | Some u => drop_while (fun c => memb c [32]) u
                  | None => []
                  end in
      (until (str "=") s, fst (q_split t), match rest with
                                           | d :: u => if d =? 44 then u else rest
                                           | [] => []
                                           end)
    else (until (str "=") s, until (str ", ") r, past (str ", ") r)
  | [] => (until (str "=") s, [], [])
  end.

(** The pairs of a digest header of [total] bytes, of which [s] is the rest, in a
    buffer of [cap] bytes: the next eight bytes from a name must be inside the
    buffer. *)
Fixpoint digest_pairs (fuel : nat) (cap total : Z) (s : bytes) : res (list (bytes * bytes)) :=
  match fuel with
  | O => UB
  | S f =>
    let s1 := drop_while isspace s in
    let '(name, value, rest) := digest_pair s1 in
    match name with
    | [] => Ok []
    | _ => if cap <? total - len s1 + 8 then UB
           else l <- digest_pairs f cap total rest ;; Ok ((name, value) :: l)
    end
  end.
Definition digest_params (rest : bytes) : res (list (bytes * bytes)) :=
  digest_pairs (S (List.length rest)) 384 (len rest) rest.

(** Which parameter a name denotes, and the length its value is cut to.  Names
    are compared on their first characters only. *)
Definition digest_keys : list (bytes * Z) :=
  [(str "username", 255); (str "cnonce", 64); (str "response", 64); (str "uri", 255);
   (str "qop", 10); (str "nc", 9); (str "nonce", 64)].
Fixpoint key_of (ks : list (bytes * Z)) (name : bytes) : option (bytes * Z) :=
  match ks with
  | [] => None
  | k :: t => if prefixb (fst k) name then Some k else key_of t name
  end.
(** The last value given for a parameter. *)
Fixpoint digest_value (key : bytes) (ps : list (bytes * bytes)) : option bytes :=
  match ps with
  | [] => None
  | (n, v) :: t =>
    match digest_value key t with
    | Some w => Some w
    | None => match key_of digest_keys n with
              | Some (k, m) => if beq k key then Some (firstn (Z.to_nat m) v) else None
              | None => None
              end
    end
  end.

(** The header value a client sends for Digest (RFC 2617, qop=auth). *)
Definition quote (s : bytes) : bytes := [34] ++ s ++ [34].
Definition digest_rest (user realm nonce uri cnonce response : bytes) : bytes :=
  str "username=" ++ quote user ++ str ", realm=" ++ quote realm ++ str ", nonce=" ++ quote nonce
  ++ str ", uri=" ++ quote uri ++ str ", cnonce=" ++ quote cnonce ++ str ", nc=00000001, qop=" ++ quote (str "auth")
  ++ str ", response=" ++ quote response.
(** Text that needs no escaping between quotes. *)
Definition plain (s : bytes) : Prop := ~ In 34 s /\ last s 0 <> 92.

(** RFC 2617 3.2.2 (qop=auth), the request digest, for a hash [h]. *)
Definition rfc2617_ha1 (h : bytes -> bytes) (user realm pwd : bytes) : bytes :=
  hex_string (h (user ++ str ":" ++ realm ++ str ":" ++ pwd)).
Definition rfc2617_response (h : bytes -> bytes) (ha1 meth uri nonce nc cnonce : bytes) : bytes :=
  hex_string (h (ha1 ++ str ":" ++ nonce ++ str ":" ++ nc ++ str ":" ++ cnonce ++ str ":" ++ str "auth" ++ str ":"
                 ++ hex_string (h (meth ++ str ":" ++ uri)))).
