(** EST over CoAP: option values, block-wise upload, sessions, and the contract
    of the C library's sorting and searching.  No model imports. *)
From Coq Require Import ZArith List Bool Sorting.Sorted Sorting.Permutation.
From Verif Require Import Base.
Import ListNotations.
Open Scope Z_scope.

(** Order of C strings (strcmp). *)
Fixpoint lex_le (a b : bytes) : Prop :=
  match a, b with
  | [], _ => True
  | _, [] => False
  | x :: a', y :: b' => x < y \/ x = y /\ lex_le a' b'
  end.

(** What is assumed of bsearch and qsort: qsort returns the same elements in
    order; bsearch returns only elements with the key sought, and finds one in
    an ordered array if there is one. *)
Record search_lib {A : Type} (key : A -> bytes)
    (bsearch : bytes -> list A -> option nat) (qsort : list A -> list A) : Prop := {
  sort_perm : forall l, Permutation (qsort l) l;
  sort_sorted : forall l, StronglySorted (fun x y => lex_le (key x) (key y)) (qsort l);
  search_found : forall k l i, bsearch k l = Some i -> exists x, nth_error l i = Some x /\ key x = k;
  search_none : forall k l, StronglySorted (fun x y => lex_le (key x) (key y)) l ->
    bsearch k l = None -> forall x, In x l -> key x <> k
}.

(** RFC 7252 section 3.2: an unsigned integer option value. *)
Definition uint_value (v : bytes) : Z := fold_left (fun n x => n * 256 + x) v 0.

(** The values of the options numbered [num], in order. *)
Definition values (num : Z) (opts : list (Z * bytes)) : list Z :=
  map (fun o => uint_value (snd o)) (filter (fun o => fst o =? num) opts).

(** RFC 7959: block [k] of [data] in blocks of 2^(szx+4) bytes, its Block1 value
    and whether more follow. *)
Definition block_size (szx : Z) : Z := 2 ^ (szx + 4).
Definition block_data (szx k : Z) (data : bytes) : bytes :=
  firstn (Z.to_nat (block_size szx)) (skipn (Z.to_nat (k * block_size szx)) data).
Definition last_block (szx : Z) (data : bytes) : Z := (len data - 1) / block_size szx.
Definition block_option (szx k : Z) (more : bool) : Z := k * 16 + (if more then 8 else 0) + szx.

(** How the blocks 0..last of an upload may arrive, and how each message but
    the completing one is answered: the next block or one already received
    (not block 0): 2.31 Continue; a block after a gap: 4.08.  [hi] is the
    highest block received so far, -1 if none. *)
Inductive upload (last : Z) : Z -> list (Z * Z) -> Prop :=
| up_last : upload last (last - 1) []
| up_next : forall hi ks, hi + 1 < last -> upload last (hi + 1) ks -> upload last hi ((hi + 1, 231) :: ks)
| up_again : forall hi k ks, 1 <= k <= hi -> upload last hi ks -> upload last hi ((k, 231) :: ks)
| up_gap : forall hi k ks, 0 <= hi -> hi + 1 < k <= last -> upload last hi ks -> upload last hi ((k, 408) :: ks).

(** The answer to the values of a format option: 0 if they are acceptable,
    4.02 (Bad Option) for several values or one that is no format number. *)
Definition option_verdict (vs : list Z) (absent media wrong : Z) : Z :=
  match vs with
  | [] => absent
  | v :: more => if v =? media then match more with [] => 0 | _ => 402 end
                 else if 65535 <? v then 402 else wrong
  end.

(** Sessions: the peers that have request state after a history, at most [max].
    [opens] and [closes] tell which events need or free the state of a peer. *)
Section Sessions.
Variables (E P : Type) (eqb : P -> P -> bool) (opens closes : E -> option P).
Definition session_step (max : Z) (act : list P) (e : E) : list P :=
  match closes e with
  | Some p => filter (fun q => negb (eqb p q)) act
  | None => match opens e with
            | Some p => if existsb (eqb p) act then act
                        else if len act <? max then p :: act else act
            | None => act
            end
  end.
Definition sessions (max : Z) (h : list E) : list P := fold_left (session_step max) h [].
End Sessions.

(** What the events of one peer were answered. *)
Definition answers_to {E R} (mine : E -> bool) (h : list E) (rs : list R) : list R :=
  map snd (filter (fun x => mine (fst x)) (combine h rs)).
