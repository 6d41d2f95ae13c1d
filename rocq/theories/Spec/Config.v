(** What configuration calls should do. *)
From Coq Require Import String ZArith List Bool.
From Verif Require Import Base Model.EstErr Model.AuthHdr Model.Server Model.Config.
Import ListNotations.
Open Scope Z_scope.

(** The documented limits (est.h, est_locl.h). *)
Record within_limits (c : ctx) : Prop := {
  lim_auth : In (x_auth_mode c) [AUTH_BASIC; AUTH_DIGEST; AUTH_TOKEN];
  lim_realm : len (x_realm c) <= 255;
  lim_retry : 60 <= x_retry c <= 172800;
  lim_brski : 1 <= x_brski_retry c <= 70;
  lim_read : 1 <= x_read_timeout c <= 3600;
  lim_pwd : len (x_pwd c) <= 255;
  lim_mfgs : forall l, x_mfgs c = Some l -> length l = 4%nat;
  lim_timer : x_dtls_timer c = 0 \/ 2 <= x_dtls_timer c <= 60;
  lim_mtu : x_mtu c = 0 \/ 256 <= x_mtu c <= 1152;
  lim_sessions : 2 <= x_sessions c <= 128;
  lim_port : 0 <= x_port c <= 65535
}.

(** When a call with a numeric argument must be accepted. *)
Definition valid_argument (o : op) : Prop :=
  match o with
  | SetAuthMode m fips => m = 1 \/ (m = 2 /\ fips = false) \/ m = 3
  | SetRetryPeriod n => 60 <= n <= 172800
  | SetBrskiRetryPeriod n => 1 <= n <= 70
  | SetReadTimeout n => 1 <= n <= 3600
  | SetDtlsTimeout n => n = 0 \/ 2 <= n <= 60
  | SetDtlsMtu n => n = 0 \/ 256 <= n <= 1152
  | SetCurve n => 0 < n
  | SetDh parms _ => parms = true
  | EnableSrp cb => cb = true
  | SetHttpAuthRequired _ | EnablePop | DisablePop | EnforceCsrattrs => True
  | _ => False
  end.
Definition depends_on_state (o : op) : bool :=
  match o with
  | EnableEca _ _ _ | AddMfg _ _ _ _ _ _ _ _ | DisableEca | InitCsrattrs _ | SetSessionMax _ _ | CoapStart _ _ | SetCallback _ _ => true
  | _ => false
  end.

(** The value of a setting after a history: that of the last accepted call
    that sets it, or the default. *)
Definition setting {A : Type} (default : A) (sets : op -> option A) (h : list (op * est_error)) : A :=
  fold_left (fun v oe => match sets (fst oe), snd oe with Some a, EST_ERR_NONE => a | _, _ => v end) h default.

Definition mode_code (m : Z) : auth_mode := if m =? 1 then AUTH_BASIC else if m =? 2 then AUTH_DIGEST else AUTH_TOKEN.
Definition sets_auth o := match o with SetAuthMode m _ => Some (mode_code m) | _ => None end.
Definition sets_required o := match o with SetHttpAuthRequired r => Some r | CoapStart _ _ => Some 0 | _ => None end.
Definition sets_retry o := match o with SetRetryPeriod n => Some n | _ => None end.
Definition sets_brski o := match o with SetBrskiRetryPeriod n => Some n | _ => None end.
Definition sets_read o := match o with SetReadTimeout n => Some n | _ => None end.
Definition sets_timer o := match o with SetDtlsTimeout n => Some n | _ => None end.
Definition sets_mtu o := match o with SetDtlsMtu n => Some n | _ => None end.
Definition sets_pop o := match o with EnablePop => Some true | DisablePop => Some false | _ => None end.
Definition sets_enforce o := match o with EnforceCsrattrs => Some true | _ => None end.
Definition sets_eca o := match o with EnableEca _ _ _ => Some true | DisableEca => Some false | _ => None end.
Definition sets_csr_check o := match o with EnableEca _ _ f => Some (f =? 1) | _ => None end.
Definition sets_srp o := match o with EnableSrp _ => Some true | _ => None end.
Definition sets_curve o := match o with SetCurve n => Some n | _ => None end.
Definition sets_transport o := match o with CoapStart _ _ => Some EST_COAP | _ => None end.
Definition sets_callback cb o := match o with SetCallback cb' p => if cb_eq_dec cb cb' then Some p else None | _ => None end.

(** The manufacturers a server knows, in order of registration. *)
Definition manufacturers (h : list (op * est_error)) : list (Z * bytes) :=
  fold_left (fun l oe =>
    match oe with
    | (AddMfg _ nid (Some certs) _ _ _ _ _, EST_ERR_NONE) => if Nat.ltb (length l) 4 then l ++ [(nid, certs)] else l
    | (DisableEca, EST_ERR_NONE) => []
    | _ => l
    end) h [].
(** Those the context holds. *)
Definition usable (s : slot) : list (Z * bytes) :=
  match sl_store s with Some certs => if sl_ctx s then [(sl_nid s, certs)] else [] | None => [] end.
Definition held (c : ctx) : list (Z * bytes) :=
  match x_mfgs c with Some l => concat (map usable l) | None => [] end.

(** What requests can depend on: the details of enhanced certificate
    authentication only while it is on, and of manufacturer slots only those in
    use. *)
Definition slot_view (s : slot) : slot := match usable s with [] => no_slot | _ => s end.
Definition effective (c : ctx) : ctx :=
  let c := set_mfgs (option_map (map slot_view) (x_mfgs c)) c in
  if x_eca c then c else set_local_nid 0 (set_pwd [] (set_csr_check false c)).
