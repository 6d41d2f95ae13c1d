(** safe_c_stub: the bounded string and memory functions the library is built
    with unless it is configured with another implementation.  A pointer is NULL
    ([None]) or the start of a block, given by its octets; source and destination
    are different blocks (the test for overlap in strncpy_s is left out).  The
    functions return an error and the destination afterwards.  The C library's
    functions are given by what the C standard says of them. *)
From Coq Require Import ZArith List Bool.
From Verif Require Import Base.
Import ListNotations.
Open Scope Z_scope.

(** safe_lib_errno.h:53-96 *)
Definition EOK : Z := 0.
Definition ESNULLP : Z := 400.
Definition ESZEROL : Z := 401.
Definition ESLEMAX : Z := 403.
Definition ESNOSPC : Z := 406.
(** safe_mem_lib.h:42, safe_str_lib.h:52: SIZE_MAX/2 on a 64-bit machine *)
Definition RSIZE_MAX : Z := 9223372036854775807.

(** * The C library *)
(** The text at a pointer, of which at most [n] characters are read. *)
Fixpoint text_upto (n : nat) (s : bytes) : res bytes :=
  match n with
  | O => Ok []
  | S n' =>
    match s with
    | [] => UB
    | c :: s' => if c =? 0 then Ok [] else t <- text_upto n' s' ;; Ok (c :: t)
    end
  end.
(** strncpy (C99 7.21.2.4): pads with NUL, adds none. *)
Definition strncpy (d s : bytes) (n : Z) : res bytes :=
  if len d <? n then UB
  else
    t <- text_upto (Z.to_nat n) s ;;
    Ok (t ++ repeat 0 (Z.to_nat (n - len t)) ++ skipn (Z.to_nat n) d).
(** strncat (C99 7.21.3.2): appends at most [n] characters, and a NUL. *)
Definition strncat (d s : bytes) (n : Z) : res bytes :=
  a <- cstr d ;;
  t <- text_upto (Z.to_nat n) s ;;
  if len a + len t + 1 <=? len d then Ok (a ++ t ++ 0 :: skipn (Z.to_nat (len a + len t + 1)) d) else UB.
(** memcpy, memmove (C99 7.21.2.1, 7.21.2.2) *)
Definition memcpy (d s : bytes) (n : Z) : res bytes :=
  if (len d <? n) || (len s <? n) then UB
  else Ok (firstn (Z.to_nat n) s ++ skipn (Z.to_nat n) d).
(** memset (C99 7.21.6.1) *)
Definition memset (d : bytes) (c n : Z) : res bytes :=
  if len d <? n then UB else Ok (repeat (c mod 256) (Z.to_nat n) ++ skipn (Z.to_nat n) d).

(** * safe_str_stub.c *)
(** safe_str_stub.c:309-314 strcpy_s *)
Definition strcpy_s (dest : option bytes) (dmax : Z) (src : option bytes) : res (Z * option bytes) :=
  match dest, src with
  | Some d, Some s =>
    if dmax =? 0 then Ok (ESZEROL, dest)
    else d' <- strncpy d s dmax ;; Ok (EOK, Some d')
  | _, _ => Ok (ESNULLP, dest)
  end.

(** safe_str_stub.c:351-408: the loops of strncpy_s, from [i] on; [n] is what is
    left of dmax. *)
Fixpoint strncpy_loop (n : nat) (d s : bytes) (i slen : Z) : res (Z * option bytes) :=
  match n with
  | O => d' <- wr d 0 0 ;; Ok (ESNOSPC, Some d')
  | S n' =>
    if slen =? 0 then d' <- wr d i 0 ;; Ok (EOK, Some d')
    else
      c <- rd s i ;;
      d' <- wr d i c ;;
      if c =? 0 then Ok (EOK, Some d') else strncpy_loop n' d' s (i + 1) (slen - 1)
  end.
(** safe_str_stub.c:321-416 strncpy_s *)
Definition strncpy_s (dest : option bytes) (dmax : Z) (src : option bytes) (slen : Z) : res (Z * option bytes) :=
  match dest with
  | None => Ok (ESNULLP, dest)
  | Some d =>
    if dmax =? 0 then Ok (ESZEROL, dest)
    else if RSIZE_MAX <? dmax then Ok (ESLEMAX, dest)
    else match src with
    | None => d' <- wr d 0 0 ;; Ok (ESNULLP, Some d')
    | Some s =>
      d1 <- (if RSIZE_MAX <? slen then wr d 0 0 else Ok d) ;;
      strncpy_loop (Z.to_nat dmax) d1 s 0 slen
    end
  end.

(** safe_str_stub.c:108-113 strcat_s *)
Definition strcat_s (dest : option bytes) (dmax : Z) (src : option bytes) : res (Z * option bytes) :=
  match dest, src with
  | Some d, Some s =>
    if dmax =? 0 then Ok (ESZEROL, dest) else d' <- strncat d s dmax ;; Ok (EOK, Some d')
  | _, _ => Ok (ESNULLP, dest)
  end.
(** safe_str_stub.c:297-302 strncat_s *)
Definition strncat_s (dest : option bytes) (dmax : Z) (src : option bytes) (slen : Z) : res (Z * option bytes) :=
  match dest, src with
  | Some d, Some s =>
    if dmax =? 0 then Ok (ESZEROL, dest) else d' <- strncat d s slen ;; Ok (EOK, Some d')
  | _, _ => Ok (ESNULLP, dest)
  end.
(** safe_str_stub.c:423-428 strnlen_s *)
Definition strnlen_s (s : option bytes) (smax : Z) : res Z :=
  match s with
  | None => Ok 0
  | Some s => t <- text_upto (Z.to_nat smax) s ;; Ok (len t)
  end.

(** safe_str_stub.c:88-99: the loop of strcasecmp_s and the comparison behind
    it: the difference at the place where it stops. *)
Fixpoint casecmp_loop (n : nat) (a b : bytes) : res Z :=
  match a, b with
  | x :: a', y :: b' =>
    if (x =? 0) || (y =? 0) then Ok (toupper x - toupper y)
    else match n with
    | O => Ok (toupper x - toupper y)
    | S n' => if toupper x =? toupper y then casecmp_loop n' a' b' else Ok (toupper x - toupper y)
    end
  | _, _ => UB
  end.
(** safe_str_stub.c:62-101 strcasecmp_s: error and indicator. *)
Definition strcasecmp_s (dest : option bytes) (dmax : Z) (src : option bytes) : res (Z * Z) :=
  match dest, src with
  | Some d, Some s =>
    if dmax =? 0 then Ok (ESZEROL, 0)
    else if RSIZE_MAX <? dmax then Ok (ESLEMAX, 0)
    else i <- casecmp_loop (Z.to_nat dmax) d s ;; Ok (EOK, i)
  | _, _ => Ok (ESNULLP, 0)
  end.

(** safe_str_stub.c:139-146: the loop of strisdigit_s *)
Fixpoint digit_loop (s : bytes) : res Z :=
  match s with
  | [] => UB
  | c :: s' => if c =? 0 then Ok 1 else if (c <? 48) || (57 <? c) then Ok 0 else digit_loop s'
  end.
(** safe_str_stub.c:120-149 strisdigit_s *)
Definition strisdigit_s (dest : option bytes) (dmax : Z) : res Z :=
  match dest with
  | None => Ok 0
  | Some d =>
    if dmax =? 0 then Ok 0
    else if RSIZE_MAX <? dmax then Ok 0
    else c <- rd d 0 ;; if c =? 0 then Ok 0 else digit_loop d
  end.

(** safe_str_stub.c:198-207 and 266-276: is the character among the first [n]
    of the second string? *)
Fixpoint among (c : Z) (n : nat) (s : bytes) : res bool :=
  match s with
  | [] => UB
  | x :: s' => if x =? 0 then Ok false else match n with O => Ok false | S n' => if c =? x then Ok true else among c n' s' end
  end.
(** safe_str_stub.c:192-212, 259-286: the loops of strcspn_s ([stop] true) and
    strspn_s ([stop] false), counting. *)
Fixpoint span_loop (stop : bool) (n : nat) (d s : bytes) (slen : nat) : res Z :=
  match d with
  | [] => UB
  | c :: d' =>
    if c =? 0 then Ok 0
    else match n with
    | O => Ok 0
    | S n' =>
      m <- among c slen s ;;
      if Bool.eqb m stop then Ok 0 else k <- span_loop stop n' d' s slen ;; Ok (k + 1)
    end
  end.
Definition span_s (stop : bool) (dest : option bytes) (dmax : Z) (src : option bytes) (slen : Z) : res (Z * Z) :=
  match dest, src with
  | Some d, Some s =>
    if dmax =? 0 then Ok (ESZEROL, 0)
    else if RSIZE_MAX <? dmax then Ok (ESLEMAX, 0)
    else if slen =? 0 then Ok (ESZEROL, 0)
    else if RSIZE_MAX <? slen then Ok (ESLEMAX, 0)
    else k <- span_loop stop (Z.to_nat dmax) d s (Z.to_nat slen) ;; Ok (EOK, k)
  | _, _ => Ok (ESNULLP, 0)
  end.
(** safe_str_stub.c:156-215 strcspn_s, 222-289 strspn_s *)
Definition strcspn_s := span_s true.
Definition strspn_s := span_s false.

(** strstr (C99 7.21.5.7): the offset of the first occurrence, from [i] on. *)
Fixpoint strstr_from (i : Z) (s p : bytes) : option Z :=
  if prefixb p s then Some i else match s with [] => None | _ :: s' => strstr_from (i + 1) s' p end.
Definition strstr (d p : bytes) : res (option Z) := s <- cstr d ;; t <- cstr p ;; Ok (strstr_from 0 s t).
(** errno.h *)
Definition ESRCH : Z := 3.
(** safe_str_stub.c:435-441 strstr_s: error and *substring.  The limits are not
    used, and the pointers are not tested. *)
Definition strstr_s (dest : option bytes) (dmax : Z) (src : option bytes) (slen : Z) : res (Z * option Z) :=
  match dest, src with
  | Some d, Some s => r <- strstr d s ;; Ok (match r with Some _ => EOK | None => ESRCH end, r)
  | _, _ => UB
  end.

(** strncmp (C99 7.21.4.4), as a test for equality. *)
Definition strncmp_same (a b : bytes) (n : Z) : res bool :=
  x <- text_upto (Z.to_nat n) a ;; y <- text_upto (Z.to_nat n) b ;; Ok (beq x y).
(** safe_str_stub.c:50-55 strcmp_s: error and whether the indicator is 0.  (The
    text is read up to its end or the limit, also behind the first difference.) *)
Definition strcmp_s (dest : option bytes) (dmax : Z) (src : option bytes) : res (Z * bool) :=
  match dest, src with
  | Some d, Some s => if dmax =? 0 then Ok (ESZEROL, false) else e <- strncmp_same d s dmax ;; Ok (EOK, e)
  | _, _ => Ok (ESNULLP, false)
  end.

(** safe_str_stub.c:505-522, 546-569: is the character a delimiter?  [None]: the
    list of delimiters is too long. *)
Fixpoint delimiter (c : Z) (n : nat) (src : bytes) {struct src} : res (option bool) :=
  match src with
  | [] => UB
  | p :: src' =>
    if p =? 0 then Ok (Some false)
    else match n with
    | O => Ok None
    | S n' => if c =? p then Ok (Some true) else delimiter c n' src'
    end
  end.
Inductive scan :=
| Broken                                (* a bound is exceeded *)
| AtEnd (dlen : Z)                      (* the text has ended *)
| At (i : Z) (behind : bytes) (dlen : Z). (* found at [i] *)
(** safe_str_stub.c:494-525: the loop that looks for the start of a token; [d] is
    the block from [i] on. *)
Fixpoint token_start (src d : bytes) (i dlen : Z) : res scan :=
  match d with
  | [] => UB
  | c :: d' =>
    if c =? 0 then Ok (AtEnd dlen)
    else if dlen =? 0 then Ok Broken
    else
      r <- delimiter c 16 src ;;
      match r with
      | None => Ok Broken
      | Some true => token_start src d' (i + 1) (dlen - 1)
      | Some false =>
        p <- rd src 0 ;;
        if p =? 0 then token_start src d' (i + 1) (dlen - 1) else Ok (At i d' (dlen - 1))
      end
  end.
(** safe_str_stub.c:539-573: the loop that looks for its end *)
Fixpoint token_end (src d : bytes) (i dlen : Z) : res scan :=
  match d with
  | [] => UB
  | c :: d' =>
    if c =? 0 then Ok (AtEnd dlen)
    else if dlen =? 0 then Ok Broken
    else
      r <- delimiter c 16 src ;;
      match r with
      | None => Ok Broken
      | Some true => Ok (At i d' dlen)
      | Some false => token_end src d' (i + 1) (dlen - 1)
      end
  end.
(** safe_str_stub.c:448-578 strtok_s, on the block [m].  [dest] and [ptr]: offsets
    into it, [None] for NULL.  Result: the token, the block, *ptr and *dmax. *)
Definition strtok_s (m : bytes) (dest : option Z) (dmax : Z) (src : bytes) (ptr : option Z) : res (option Z * bytes * option Z * Z) :=
  if dmax =? 0 then Ok (None, m, ptr, dmax)
  else if RSIZE_MAX <? dmax then Ok (None, m, ptr, dmax)
  else
    match match dest with Some _ => dest | None => ptr end with
    | None => UB
    | Some o =>
      if (o <? 0) || (len m <? o) then UB
      else
        a <- token_start src (skipn (Z.to_nat o) m) o dmax ;;
        match a with
        | Broken => Ok (None, m, None, dmax)
        | AtEnd dlen => Ok (None, m, ptr, dlen)
        | At t d dlen =>
          b <- token_end src d (t + 1) dlen ;;
          match b with
          | Broken => Ok (None, m, None, dmax)
          | AtEnd dlen => Ok (Some t, m, ptr, dlen)
          | At e _ dlen => m' <- wr m e 0 ;; Ok (Some t, m', Some (e + 1), dlen - 1)
          end
        end
    end.

(** * safe_mem_stub.c *)
(** safe_mem_stub.c:53-58 memzero_s *)
Definition memzero_s (dest : option bytes) (dmax : Z) : res (Z * option bytes) :=
  match dest with
  | None => Ok (ESNULLP, dest)
  | Some d => d' <- memset d 0 dmax ;; Ok (EOK, Some d')
  end.
(** safe_mem_stub.c:65-70 memcpy_s *)
Definition memcpy_s (dest : option bytes) (dmax : Z) (src : option bytes) (slen : Z) : res (Z * option bytes) :=
  match dest, src with
  | Some d, Some s =>
    if dmax <? slen then Ok (ESLEMAX, dest) else d' <- memcpy d s slen ;; Ok (EOK, Some d')
  | _, _ => Ok (ESNULLP, dest)
  end.
(** safe_mem_stub.c:77-84 memcmp_s: error and whether the blocks agree. *)
Definition memcmp_s (dest : option bytes) (dmax : Z) (src : option bytes) (slen : Z) : res (Z * bool) :=
  match dest, src with
  | Some d, Some s =>
    if dmax =? 0 then Ok (ESZEROL, false)
    else if slen =? 0 then Ok (ESZEROL, false)
    else if dmax <? slen then Ok (ESLEMAX, false)
    else if (len d <? slen) || (len s <? slen) then UB
    else Ok (EOK, beq (firstn (Z.to_nat slen) d) (firstn (Z.to_nat slen) s))
  | _, _ => Ok (ESNULLP, false)
  end.
(** safe_mem_stub.c:92-136 memmove_s *)
Definition memmove_s (dest : option bytes) (dmax : Z) (src : option bytes) (smax : Z) : res (Z * option bytes) :=
  match dest with
  | None => Ok (ESNULLP, dest)
  | Some d =>
    if dmax =? 0 then Ok (ESZEROL, dest)
    else if RSIZE_MAX <? dmax then Ok (ESLEMAX, dest)
    else if smax =? 0 then d' <- memset d 0 dmax ;; Ok (ESZEROL, Some d')
    else if dmax <? smax then d' <- memset d 0 dmax ;; Ok (ESLEMAX, Some d')
    else match src with
    | None => d' <- memset d 0 dmax ;; Ok (ESNULLP, Some d')
    | Some s => d' <- memcpy d s smax ;; Ok (EOK, Some d')
    end
  end.
(** safe_mem_stub.c:143-165 memset_s *)
Definition memset_s (s : option bytes) (smax c n : Z) : res (Z * option bytes) :=
  match s with
  | None => Ok (ESNULLP, s)
  | Some d =>
    if RSIZE_MAX <? smax then Ok (ESLEMAX, s)
    else if (RSIZE_MAX <? n) || (smax <? n) then d' <- memset d c smax ;; Ok (ESLEMAX, Some d')
    else d' <- memset d c n ;; Ok (EOK, Some d')
  end.
