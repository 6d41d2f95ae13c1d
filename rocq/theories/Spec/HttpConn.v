(** What a connection does, as a function of the byte stream alone: no buffer,
    no segmentation of the stream into network reads.  [req_of_head] is the
    parser for one request head (given as the head bytes without the final LF)
    and [uri_of] the URI treatment; both are parameters here. *)
From Coq Require Import String ZArith List Bool.
From Verif Require Import Base Model.CLib Model.HttpServer.
Import ListNotations.
Open Scope Z_scope.

Section Serve.
Variable S0 : Type.
Variable handler : S0 -> est_req -> S0 * Z.
Variable head_len : bytes -> Z.        (* of a window: -1 malformed, 0 incomplete *)
Variable req_of_head : bytes -> option http_req.
Variable uri_of : bytes -> bytes.

Fixpoint serve (fuel : nat) (ka : bool) (s : S0) (stream : bytes) : list http_event * S0 :=
  match fuel with
  | O => ([], s)
  | S fuel' =>
    let n := head_len (firstn (Z.to_nat 16384) stream) in
    if n =? 0 then
      if 16384 <=? len stream then ([EvError 413], s) else ([], s)
    else if n <? 0 then ([], s)
    else
      match req_of_head (firstn (Z.to_nat (n - 1)) stream) with
      | None => ([EvError 400], s)
      | Some rq =>
        if negb (is_valid_uri (hr_uri rq)) then ([EvError 400], s)
        else if negb (strncmp_eq 3 (hr_version rq) (str "1.0"))
             && negb (strncmp_eq 3 (hr_version rq) (str "1.1")) then ([EvError 505], s)
        else
          let clen := request_content_len rq in
          if 8192 <? clen then ([EvError 413], s)
          else if clen <? 0 then ([EvError 400], s)
          else
            let body := match get_header (hr_headers rq) (str "Content-Length") with
                        | Some _ => Some (clen, firstn (Z.to_nat clen) (skipn (Z.to_nat n) stream))
                        | None => None
                        end in
            let r := {| er_method := hr_method rq; er_uri := uri_of (hr_uri rq);
                        er_headers := hr_headers rq; er_body := body |} in
            let '(s', st) := handler s r in
            if should_keep_alive false st ka (get_header (hr_headers rq) (str "Connection"))
                                 (Some (hr_version rq)) then
              let '(evs, s'') := serve fuel' ka s' (skipn (Z.to_nat (n + clen)) stream) in
              (EvServed r st :: evs, s'')
            else ([EvServed r st], s')
      end
  end.
End Serve.
