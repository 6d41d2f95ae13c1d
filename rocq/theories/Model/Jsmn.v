(** Model of the JSON tokenizer /repo/src/est/jsmn.c (built without JSMN_STRICT
    and JSMN_PARENT_LINKS).  Chars above 127 are taken as 128..255; the tests
    on them (c < 32 || c >= 127) have the same outcome for negative chars. *)
From Coq Require Import String ZArith List Bool.
From Verif Require Import Base.
Import ListNotations.
Open Scope Z_scope.

(** jsmn.h:17-23 jsmntype_t *)
Inductive jtype := JSMN_UNDEFINED | JSMN_OBJECT | JSMN_ARRAY | JSMN_STRING | JSMN_PRIMITIVE.
Definition jtype_eqb (a b : jtype) : bool :=
  match a, b with
  | JSMN_UNDEFINED, JSMN_UNDEFINED | JSMN_OBJECT, JSMN_OBJECT | JSMN_ARRAY, JSMN_ARRAY
  | JSMN_STRING, JSMN_STRING | JSMN_PRIMITIVE, JSMN_PRIMITIVE => true
  | _, _ => false
  end.
(** jsmn.h:25-32 jsmnerr *)
Definition JSMN_ERROR_NOMEM : Z := -1.
Definition JSMN_ERROR_INVAL : Z := -2.
Definition JSMN_ERROR_PART : Z := -3.

(** jsmn.h:40-48 jsmntok_t *)
Record tok := { t_type : jtype; t_start : Z; t_end : Z; t_size : Z }.
(** A token of zeroed memory (calloc). *)
Definition tok0 : tok := {| t_type := JSMN_UNDEFINED; t_start := 0; t_end := 0; t_size := 0 |}.

(** jsmn.h:54-58 jsmn_parser together with the token array: [p_toks] are the
    tokens allocated so far, so toknext is its length; the array entries from
    there on are untouched. *)
Record parser := { p_pos : Z; p_super : Z; p_toks : list tok }.
(** jsmn.c:309-313 jsmn_init *)
Definition jsmn_init : parser := {| p_pos := 0; p_super := -1; p_toks := [] |}.

Definition at_pos (p : parser) (n : Z) : parser := {| p_pos := n; p_super := p_super p; p_toks := p_toks p |}.
Definition with_super (p : parser) (i : Z) : parser := {| p_pos := p_pos p; p_super := i; p_toks := p_toks p |}.
Definition with_toks (p : parser) (l : list tok) : parser := {| p_pos := p_pos p; p_super := p_super p; p_toks := l |}.

(** jsmn.c:6-30 jsmn_alloc_token, jsmn_fill_token; [k] is num_tokens.  [None] is NULL. *)
Definition jsmn_new_token (k : Z) (p : parser) (t : tok) : option parser :=
  if k <=? len (p_toks p) then None else Some (with_toks p (p_toks p ++ [t])).

(** tokens[parser->toksuper].size++ unless toksuper is -1 (196, 252-253, 285-286). *)
Definition tok_at (l : list tok) (i : Z) : res tok :=
  if (0 <=? i) && (i <? len l) then Ok (nth (Z.to_nat i) l tok0) else UB.
Definition bump_super (p : parser) : res parser :=
  if p_super p =? -1 then Ok p
  else t <- tok_at (p_toks p) (p_super p) ;;
       Ok (with_toks p (set_nth (Z.to_nat (p_super p)) (p_toks p)
         {| t_type := t_type t; t_start := t_start t; t_end := t_end t; t_size := t_size t + 1 |})).

(** jsmn.c:35-79 jsmn_parse_primitive: the scan of lines 42-56.  [s] is the
    input from [pos] to [len].  [None] is JSMN_ERROR_INVAL; else where it stops
    and the input from there. *)
Definition ends_primitive (c : Z) : bool := memb c [58; 9; 13; 10; 32; 44; 93; 125].
Fixpoint prim_scan (s : bytes) (pos : Z) : option (Z * bytes) :=
  match s with
  | [] => Some (pos, [])
  | c :: t => if c =? 0 then Some (pos, s)
              else if ends_primitive c then Some (pos, s)
              else if (c <? 32) || (127 <=? c) then None
              else prim_scan t (pos + 1)
  end.

(** jsmn.c:84-146 jsmn_parse_string: the scan of lines 93-143 as a machine that
    remembers a pending backslash or the number of hex digits still wanted
    after \u.  A backslash as the last character just ends the scan, like the
    input running out after it. *)
Inductive sstate := SPlain | SEscape | SHex (n : nat).
Inductive sresult := SFound (pos : Z) (rest : bytes) | SInval | SPart.
Definition simple_escape (c : Z) : bool := memb c [34; 47; 92; 98; 102; 114; 110; 116].
Fixpoint str_scan (st : sstate) (s : bytes) (pos : Z) : sresult :=
  match s with
  | [] => SPart
  | c :: t =>
    match st with
    | SEscape =>
      if simple_escape c then str_scan SPlain t (pos + 1)
      else if c =? 117 then str_scan (SHex 4) t (pos + 1)
      else SInval
    | SHex (S n) =>
      if c =? 0 then SPart
      else if isxdigit c then str_scan (match n with O => SPlain | _ => SHex n end) t (pos + 1)
      else SInval
    | _ =>
      if c =? 0 then SPart
      else if c =? 34 then SFound pos t
      else if c =? 92 then str_scan SEscape t (pos + 1)
      else str_scan SPlain t (pos + 1)
    end
  end.

(** token->start != -1 && token->end == -1 *)
Definition is_open (t : tok) : bool := negb (t_start t =? -1) && (t_end t =? -1).
(** for (i = n - 1; i >= 0; i--) if (f tokens[i]) break; *)
Fixpoint last_index (f : tok -> bool) (l : list tok) (n : nat) : Z :=
  match n with
  | O => -1
  | S n' => if f (nth n' l tok0) then Z.of_nat n' else last_index f l n'
  end.

(** jsmn.c:213-231, a closing bracket. [None] is JSMN_ERROR_INVAL. *)
Definition close_bracket (ty : jtype) (p : parser) : option parser :=
  let i := last_index is_open (p_toks p) (length (p_toks p)) in
  if i =? -1 then None
  else
    let t := nth (Z.to_nat i) (p_toks p) tok0 in
    if negb (jtype_eqb (t_type t) ty) then None
    else
      let l := set_nth (Z.to_nat i) (p_toks p)
                 {| t_type := t_type t; t_start := t_start t; t_end := p_pos p + 1; t_size := t_size t |} in
      Some {| p_pos := p_pos p; p_super := last_index is_open l (S (Z.to_nat i)); p_toks := l |}.

(** jsmn.c:243-262, a comma. *)
Definition is_container (t : tok) : bool := jtype_eqb (t_type t) JSMN_ARRAY || jtype_eqb (t_type t) JSMN_OBJECT.
Definition comma (p : parser) : res parser :=
  if p_super p =? -1 then Ok p
  else
    t <- tok_at (p_toks p) (p_super p) ;;
    if is_container t then Ok p
    else
      let i := last_index (fun t => is_container t && is_open t) (p_toks p) (length (p_toks p)) in
      Ok (if i =? -1 then p else with_super p i).

(** jsmn.c:151-303 jsmn_parse: the loop of lines 158-292 and the final check.
    [s]: the input from pos to len.  [cap]: num_tokens, or [None] for tokens ==
    NULL.  The pos++ of the for statement is folded into each case (the
    primitive's pos-- cancels it).  Result: return value and parser. *)
Fixpoint jsmn_loop (fuel : nat) (s : bytes) (cap : option Z) (p : parser) (count : Z) : res (Z * parser) :=
  match fuel with
  | O => UB
  | S fuel' =>
    let finish :=
      match cap with
      | None => Ok (count, p)
      | Some _ => if last_index is_open (p_toks p) (length (p_toks p)) =? -1 then Ok (count, p) else Ok (JSMN_ERROR_PART, p)
      end in
    match s with
    | [] => finish
    | c :: t =>
      if c =? 0 then finish
      else
        let next (p' : parser) (count' : Z) := jsmn_loop fuel' t cap (at_pos p' (p_pos p + 1)) count' in
        if (c =? 123) || (c =? 91) then
          match cap with
          | None => next p (count + 1)
          | Some k =>
            match jsmn_new_token k p {| t_type := if c =? 123 then JSMN_OBJECT else JSMN_ARRAY; t_start := p_pos p; t_end := -1; t_size := 0 |} with
            | None => Ok (JSMN_ERROR_NOMEM, p)
            | Some p1 => p2 <- bump_super p1 ;; next (with_super p2 (len (p_toks p2) - 1)) (count + 1)
            end
          end
        else if (c =? 125) || (c =? 93) then
          match cap with
          | None => next p count
          | Some _ =>
            match close_bracket (if c =? 125 then JSMN_OBJECT else JSMN_ARRAY) p with
            | None => Ok (JSMN_ERROR_INVAL, p)
            | Some p1 => next p1 count
            end
          end
        else if c =? 34 then
          match str_scan SPlain t (p_pos p + 1) with
          | SInval => Ok (JSMN_ERROR_INVAL, p)
          | SPart => Ok (JSMN_ERROR_PART, p)
          | SFound e t' =>
            match cap with
            | None => jsmn_loop fuel' t' cap (at_pos p (e + 1)) (count + 1)
            | Some k =>
              match jsmn_new_token k p {| t_type := JSMN_STRING; t_start := p_pos p + 1; t_end := e; t_size := 0 |} with
              | None => Ok (JSMN_ERROR_NOMEM, p)
              | Some p1 => p2 <- bump_super p1 ;; jsmn_loop fuel' t' cap (at_pos p2 (e + 1)) (count + 1)
              end
            end
          end
        else if memb c [9; 13; 10; 32] then next p count
        else if c =? 58 then next (with_super p (len (p_toks p) - 1)) count
        else if c =? 44 then
          match cap with
          | None => next p count
          | Some _ => p1 <- comma p ;; next p1 count
          end
        else
          match prim_scan s (p_pos p) with
          | None => Ok (JSMN_ERROR_INVAL, p)
          | Some (e, t') =>
            match cap with
            | None => jsmn_loop fuel' t' cap (at_pos p e) (count + 1)
            | Some k =>
              match jsmn_new_token k p {| t_type := JSMN_PRIMITIVE; t_start := p_pos p; t_end := e; t_size := 0 |} with
              | None => Ok (JSMN_ERROR_NOMEM, p)
              | Some p1 => p2 <- bump_super p1 ;; jsmn_loop fuel' t' cap (at_pos p2 e) (count + 1)
              end
            end
          end
    end
  end.

(** [js]: the memory block of the text; the model asks that it has [n] bytes,
    though a NUL before would do. *)
Definition jsmn_parse (p : parser) (js : bytes) (n : Z) (cap : option Z) : res (Z * parser) :=
  if (0 <=? p_pos p) && (n <=? len js) then
    let s := skipn (Z.to_nat (p_pos p)) (firstn (Z.to_nat n) js) in
    jsmn_loop (S (length s)) s cap p (len (p_toks p))
  else UB.
