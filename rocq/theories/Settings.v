(** The setters and getters of a context one by one, with the pointers stored in
    it (ssl_ctx.c), the copy a connection makes of them, and the pointer a host
    attaches to a connection (conn.c).  [Ctx.v] only knows whether pointers are
    set. *)
From Verif Require Import Base Codes Ctx Config ConnState.

(** he_internal.h:108-130 (and the same members of struct he_conn, 226-251): the
    callbacks; 0 is NULL. *)
Record ptrs := Ptrs {
  p_state : Z; p_nudge : Z; p_inside : Z; p_outside : Z; p_netcfg : Z; p_srvcfg : Z; p_event : Z; p_auth : Z; p_authtok : Z; p_authbuf : Z; p_populate : Z; p_pmtime : Z; p_pmstate : Z }.
Definition ptrs_null : ptrs := Ptrs 0 0 0 0 0 0 0 0 0 0 0 0 0.
(** he_internal.h:92-151 struct he_ssl_ctx.  The CA certificate is a pointer and a
    size, server_cert and server_key are pointers; [s_wolf], [s_io]: as in Ctx.v. *)
Record settings := Settings {
  s_dn : bytes; s_chacha : bool; s_ca : Z; s_ca_size : Z; s_cert : Z; s_key : Z; s_type : Z; s_ptrs : ptrs;
  s_noroam : bool; s_padding : Z; s_aggr : bool; s_pqc : bool; s_wolf : bool; s_io : Z;
  s_min : Z * Z; s_max : Z * Z; s_frag : Z }.
(** ssl_ctx.c:111-113 he_ssl_ctx_create: calloc. *)
Definition settings_new : settings := Settings (zeros 51) false 0 0 0 0 0 ptrs_null false 0 false false false 0 (0, 0) (0, 0) 0.

(** Assignments to the members. *)
Definition put_dn (v : bytes) (s : settings) : settings :=
  Settings v (s_chacha s) (s_ca s) (s_ca_size s) (s_cert s) (s_key s) (s_type s) (s_ptrs s) (s_noroam s) (s_padding s) (s_aggr s) (s_pqc s) (s_wolf s) (s_io s) (s_min s) (s_max s) (s_frag s).
Definition put_chacha (v : bool) (s : settings) : settings :=
  Settings (s_dn s) v (s_ca s) (s_ca_size s) (s_cert s) (s_key s) (s_type s) (s_ptrs s) (s_noroam s) (s_padding s) (s_aggr s) (s_pqc s) (s_wolf s) (s_io s) (s_min s) (s_max s) (s_frag s).
Definition put_ca (p n : Z) (s : settings) : settings :=
  Settings (s_dn s) (s_chacha s) p n (s_cert s) (s_key s) (s_type s) (s_ptrs s) (s_noroam s) (s_padding s) (s_aggr s) (s_pqc s) (s_wolf s) (s_io s) (s_min s) (s_max s) (s_frag s).
Definition put_cert (p q : Z) (s : settings) : settings :=
  Settings (s_dn s) (s_chacha s) (s_ca s) (s_ca_size s) p q (s_type s) (s_ptrs s) (s_noroam s) (s_padding s) (s_aggr s) (s_pqc s) (s_wolf s) (s_io s) (s_min s) (s_max s) (s_frag s).
Definition put_type (v : Z) (s : settings) : settings :=
  Settings (s_dn s) (s_chacha s) (s_ca s) (s_ca_size s) (s_cert s) (s_key s) v (s_ptrs s) (s_noroam s) (s_padding s) (s_aggr s) (s_pqc s) (s_wolf s) (s_io s) (s_min s) (s_max s) (s_frag s).
Definition put_ptrs (v : ptrs) (s : settings) : settings :=
  Settings (s_dn s) (s_chacha s) (s_ca s) (s_ca_size s) (s_cert s) (s_key s) (s_type s) v (s_noroam s) (s_padding s) (s_aggr s) (s_pqc s) (s_wolf s) (s_io s) (s_min s) (s_max s) (s_frag s).
Definition put_noroam (v : bool) (s : settings) : settings :=
  Settings (s_dn s) (s_chacha s) (s_ca s) (s_ca_size s) (s_cert s) (s_key s) (s_type s) (s_ptrs s) v (s_padding s) (s_aggr s) (s_pqc s) (s_wolf s) (s_io s) (s_min s) (s_max s) (s_frag s).
Definition put_padding (v : Z) (s : settings) : settings :=
  Settings (s_dn s) (s_chacha s) (s_ca s) (s_ca_size s) (s_cert s) (s_key s) (s_type s) (s_ptrs s) (s_noroam s) v (s_aggr s) (s_pqc s) (s_wolf s) (s_io s) (s_min s) (s_max s) (s_frag s).
Definition put_aggr (v : bool) (s : settings) : settings :=
  Settings (s_dn s) (s_chacha s) (s_ca s) (s_ca_size s) (s_cert s) (s_key s) (s_type s) (s_ptrs s) (s_noroam s) (s_padding s) v (s_pqc s) (s_wolf s) (s_io s) (s_min s) (s_max s) (s_frag s).
Definition put_pqc (v : bool) (s : settings) : settings :=
  Settings (s_dn s) (s_chacha s) (s_ca s) (s_ca_size s) (s_cert s) (s_key s) (s_type s) (s_ptrs s) (s_noroam s) (s_padding s) (s_aggr s) v (s_wolf s) (s_io s) (s_min s) (s_max s) (s_frag s).
Definition put_started (w : bool) (io : Z) (a b : Z * Z) (s : settings) : settings :=
  Settings (s_dn s) (s_chacha s) (s_ca s) (s_ca_size s) (s_cert s) (s_key s) (s_type s) (s_ptrs s) (s_noroam s) (s_padding s) (s_aggr s) (s_pqc s) w io a b (s_frag s).
Definition put_frag (v : Z) (s : settings) : settings :=
  Settings (s_dn s) (s_chacha s) (s_ca s) (s_ca_size s) (s_cert s) (s_key s) (s_type s) (s_ptrs s) (s_noroam s) (s_padding s) (s_aggr s) (s_pqc s) (s_wolf s) (s_io s) (s_min s) (s_max s) v.
Definition put_state (v : Z) (s : settings) : settings :=
  let p := s_ptrs s in put_ptrs (Ptrs v (p_nudge p) (p_inside p) (p_outside p) (p_netcfg p) (p_srvcfg p) (p_event p) (p_auth p) (p_authtok p) (p_authbuf p) (p_populate p) (p_pmtime p) (p_pmstate p)) s.
Definition put_nudge (v : Z) (s : settings) : settings :=
  let p := s_ptrs s in put_ptrs (Ptrs (p_state p) v (p_inside p) (p_outside p) (p_netcfg p) (p_srvcfg p) (p_event p) (p_auth p) (p_authtok p) (p_authbuf p) (p_populate p) (p_pmtime p) (p_pmstate p)) s.
Definition put_inside (v : Z) (s : settings) : settings :=
  let p := s_ptrs s in put_ptrs (Ptrs (p_state p) (p_nudge p) v (p_outside p) (p_netcfg p) (p_srvcfg p) (p_event p) (p_auth p) (p_authtok p) (p_authbuf p) (p_populate p) (p_pmtime p) (p_pmstate p)) s.
Definition put_outside (v : Z) (s : settings) : settings :=
  let p := s_ptrs s in put_ptrs (Ptrs (p_state p) (p_nudge p) (p_inside p) v (p_netcfg p) (p_srvcfg p) (p_event p) (p_auth p) (p_authtok p) (p_authbuf p) (p_populate p) (p_pmtime p) (p_pmstate p)) s.
Definition put_netcfg (v : Z) (s : settings) : settings :=
  let p := s_ptrs s in put_ptrs (Ptrs (p_state p) (p_nudge p) (p_inside p) (p_outside p) v (p_srvcfg p) (p_event p) (p_auth p) (p_authtok p) (p_authbuf p) (p_populate p) (p_pmtime p) (p_pmstate p)) s.
Definition put_srvcfg (v : Z) (s : settings) : settings :=
  let p := s_ptrs s in put_ptrs (Ptrs (p_state p) (p_nudge p) (p_inside p) (p_outside p) (p_netcfg p) v (p_event p) (p_auth p) (p_authtok p) (p_authbuf p) (p_populate p) (p_pmtime p) (p_pmstate p)) s.
Definition put_event (v : Z) (s : settings) : settings :=
  let p := s_ptrs s in put_ptrs (Ptrs (p_state p) (p_nudge p) (p_inside p) (p_outside p) (p_netcfg p) (p_srvcfg p) v (p_auth p) (p_authtok p) (p_authbuf p) (p_populate p) (p_pmtime p) (p_pmstate p)) s.
Definition put_auth (v : Z) (s : settings) : settings :=
  let p := s_ptrs s in put_ptrs (Ptrs (p_state p) (p_nudge p) (p_inside p) (p_outside p) (p_netcfg p) (p_srvcfg p) (p_event p) v (p_authtok p) (p_authbuf p) (p_populate p) (p_pmtime p) (p_pmstate p)) s.
Definition put_authtok (v : Z) (s : settings) : settings :=
  let p := s_ptrs s in put_ptrs (Ptrs (p_state p) (p_nudge p) (p_inside p) (p_outside p) (p_netcfg p) (p_srvcfg p) (p_event p) (p_auth p) v (p_authbuf p) (p_populate p) (p_pmtime p) (p_pmstate p)) s.
Definition put_authbuf (v : Z) (s : settings) : settings :=
  let p := s_ptrs s in put_ptrs (Ptrs (p_state p) (p_nudge p) (p_inside p) (p_outside p) (p_netcfg p) (p_srvcfg p) (p_event p) (p_auth p) (p_authtok p) v (p_populate p) (p_pmtime p) (p_pmstate p)) s.
Definition put_populate (v : Z) (s : settings) : settings :=
  let p := s_ptrs s in put_ptrs (Ptrs (p_state p) (p_nudge p) (p_inside p) (p_outside p) (p_netcfg p) (p_srvcfg p) (p_event p) (p_auth p) (p_authtok p) (p_authbuf p) v (p_pmtime p) (p_pmstate p)) s.
Definition put_pmtime (v : Z) (s : settings) : settings :=
  let p := s_ptrs s in put_ptrs (Ptrs (p_state p) (p_nudge p) (p_inside p) (p_outside p) (p_netcfg p) (p_srvcfg p) (p_event p) (p_auth p) (p_authtok p) (p_authbuf p) (p_populate p) v (p_pmstate p)) s.
Definition put_pmstate (v : Z) (s : settings) : settings :=
  let p := s_ptrs s in put_ptrs (Ptrs (p_state p) (p_nudge p) (p_inside p) (p_outside p) (p_netcfg p) (p_srvcfg p) (p_event p) (p_auth p) (p_authtok p) (p_authbuf p) (p_populate p) (p_pmtime p) v) s.

(** What the context is for the rest of the model. *)
Definition flags (p : ptrs) : cbs :=
  Cbs (negb (p_state p =? 0)) (negb (p_nudge p =? 0)) (negb (p_inside p =? 0)) (negb (p_outside p =? 0)) (negb (p_netcfg p =? 0)) (negb (p_srvcfg p =? 0)) (negb (p_event p =? 0)) (negb (p_auth p =? 0)) (negb (p_authtok p =? 0)) (negb (p_authbuf p =? 0)) (negb (p_populate p =? 0)) (negb (p_pmtime p =? 0)) (negb (p_pmstate p =? 0)).
Definition view (s : settings) : ctx :=
  Ctx (s_dn s) (s_chacha s) (negb (s_ca s =? 0)) (negb (s_cert s =? 0) && negb (s_key s =? 0)) (s_type s) (flags (s_ptrs s))
      (s_noroam s) (s_padding s) (s_aggr s) (s_pqc s) (s_wolf s) (s_io s)
      (fst (s_min s)) (snd (s_min s)) (fst (s_max s)) (snd (s_max s)) (s_frag s).

(** The calls that change a context.  Strings as in ConnState.v; [None] is NULL. *)
Inductive sop : Type :=
| SDn (v : option bytes) | SChacha (use : bool) | SCa (p n : Z) | SCert (cert key : Z) | SType (t : Z)
| SState (p : Z) | SNudge (p : Z) | SInside (p : Z) | SOutside (p : Z) | SNetcfg (p : Z) | SSrvcfg (p : Z) | SEvent (p : Z) | SAuth (p : Z) | SAuthtok (p : Z) | SAuthbuf (p : Z) | SPopulate (p : Z) | SPmtime (p : Z) | SPmstate (p : Z)
| SNoRoam | SPadding (v : Z) | SAggr | SPqc (enabled : bool) | SFrag (n : Z)
| SMin (a b : Z) | SMax (a b : Z) | SStart (ws : wolf_start) | SStartServer (ws : wolf_start).

(** ssl_ctx.c:421-428 he_ssl_ctx_set_server_dn.  [Config.set_config_string] is the
    part of config.c:49-70 for non-NULL strings; a fault leaves everything as it is
    (there is none: C51_refused). *)
Definition do_dn (v : option bytes) (s : settings) : Z * settings :=
  match v with
  | None => (HE_ERR_NULL_POINTER, s)
  | Some v => match set_config_string (s_dn s) (cmem v) with Val (rc, f) => (rc, put_dn f s) | Ub _ => (HE_ERR_NULL_POINTER, s) end
  end.
(** ssl_ctx.c:448-456 he_ssl_ctx_set_use_chacha20 *)
Definition do_chacha (use : bool) (s : settings) : Z * settings := (HE_SUCCESS, put_chacha use s).
(** ssl_ctx.c:467-490 he_ssl_ctx_set_ca *)
Definition do_ca (p n : Z) (s : settings) : Z * settings :=
  if p =? 0 then (HE_ERR_NULL_POINTER, s) else if n =? 0 then (HE_ERR_ZERO_SIZE, s) else (HE_SUCCESS, put_ca p n s).
(** ssl_ctx.c:501-516 he_ssl_ctx_set_server_cert_key_files *)
Definition do_cert (p q : Z) (s : settings) : Z * settings :=
  if (p =? 0) || (q =? 0) then (HE_ERR_NULL_POINTER, s) else (HE_SUCCESS, put_cert p q s).
(** ssl_ctx.c:527-540 he_ssl_ctx_set_connection_type *)
Definition do_type (t : Z) (s : settings) : Z * settings :=
  if negb (t =? HE_CONNECTION_TYPE_STREAM) && negb (t =? HE_CONNECTION_TYPE_DATAGRAM)
  then (HE_ERR_INVALID_CONNECTION_TYPE, s) else (HE_SUCCESS, put_type t s).
(** ssl_ctx.c:768-777 he_ssl_ctx_set_max_frag_entries *)
Definition do_frag (n : Z) (s : settings) : Z * settings :=
  (HE_SUCCESS, put_frag (if MAX_FRAGMENT_ENTRIES <? n then MAX_FRAGMENT_ENTRIES else n) s).
(** ssl_ctx.c:328-374 he_ssl_ctx_set_minimum/maximum_supported_version *)
Definition do_min (a b : Z) (s : settings) : Z * settings :=
  let d := (a =? 0) && (b =? 0) in
  let a := if d then HE_WIRE_MINIMUM_PROTOCOL_MAJOR_VERSION else a in
  let b := if d then HE_WIRE_MINIMUM_PROTOCOL_MINOR_VERSION else b in
  if negb (is_valid_wire_version a b) then (HE_ERR_INCORRECT_PROTOCOL_VERSION, s) else (HE_SUCCESS, put_started (s_wolf s) (s_io s) (a, b) (s_max s) s).
Definition do_max (a b : Z) (s : settings) : Z * settings :=
  let d := (a =? 0) && (b =? 0) in
  let a := if d then HE_WIRE_MAXIMUM_PROTOCOL_MAJOR_VERSION else a in
  let b := if d then HE_WIRE_MAXIMUM_PROTOCOL_MINOR_VERSION else b in
  if negb (is_valid_wire_version a b) then (HE_ERR_INCORRECT_PROTOCOL_VERSION, s) else (HE_SUCCESS, put_started (s_wolf s) (s_io s) (s_min s) (a, b) s).
(** ssl_ctx.c:152-309 he_ssl_ctx_start, he_ssl_ctx_start_server: Ctx.v has them; they
    assign wolf_ctx, its I/O callbacks and the versions. *)
Definition do_start (f : wolf_start -> ctx -> Z * ctx) (ws : wolf_start) (s : settings) : Z * settings :=
  let (rc, x) := f ws (view s) in (rc, put_started (x_wolf x) (x_io x) (x_min_major x, x_min_minor x) (x_max_major x, x_max_minor x) s).

(** One call on a context; the functions without a result are given HE_SUCCESS. *)
Definition sstep (s : settings) (o : sop) : Z * settings :=
  match o with
  | SDn v => do_dn v s
  | SChacha b => do_chacha b s
  | SCa p n => do_ca p n s
  | SCert p q => do_cert p q s
  | SType t => do_type t s
  (* ssl_ctx.c:542-549 he_ssl_ctx_set_state_change_cb *)
  | SState p => (HE_SUCCESS, put_state p s)
  (* ssl_ctx.c:616-623 he_ssl_ctx_set_nudge_time_cb *)
  | SNudge p => (HE_SUCCESS, put_nudge p s)
  (* ssl_ctx.c:558-565 he_ssl_ctx_set_inside_write_cb *)
  | SInside p => (HE_SUCCESS, put_inside p s)
  (* ssl_ctx.c:574-581 he_ssl_ctx_set_outside_write_cb *)
  | SOutside p => (HE_SUCCESS, put_outside p s)
  (* ssl_ctx.c:590-598 he_ssl_ctx_set_network_config_ipv4_cb *)
  | SNetcfg p => (HE_SUCCESS, put_netcfg p s)
  (* ssl_ctx.c:600-607 he_ssl_ctx_set_server_config_cb *)
  | SSrvcfg p => (HE_SUCCESS, put_srvcfg p s)
  (* ssl_ctx.c:632-639 he_ssl_ctx_set_event_cb *)
  | SEvent p => (HE_SUCCESS, put_event p s)
  (* ssl_ctx.c:641-648 he_ssl_ctx_set_auth_cb *)
  | SAuth p => (HE_SUCCESS, put_auth p s)
  (* ssl_ctx.c:650-657 he_ssl_ctx_set_auth_token_cb *)
  | SAuthtok p => (HE_SUCCESS, put_authtok p s)
  (* ssl_ctx.c:659-666 he_ssl_ctx_set_auth_buf_cb *)
  | SAuthbuf p => (HE_SUCCESS, put_authbuf p s)
  (* ssl_ctx.c:677-685 he_ssl_ctx_set_populate_network_config_ipv4_cb *)
  | SPopulate p => (HE_SUCCESS, put_populate p s)
  (* ssl_ctx.c:687-694 he_ssl_ctx_set_pmtud_time_cb *)
  | SPmtime p => (HE_SUCCESS, put_pmtime p s)
  (* ssl_ctx.c:696-704 he_ssl_ctx_set_pmtud_state_change_cb *)
  | SPmstate p => (HE_SUCCESS, put_pmstate p s)
  (* ssl_ctx.c:706-715 he_ssl_ctx_set_disable_roaming *)
  | SNoRoam => (HE_SUCCESS, put_noroam true s)
  (* ssl_ctx.c:726-735 he_ssl_ctx_set_padding_type *)
  | SPadding v => (HE_SUCCESS, put_padding v s)
  (* ssl_ctx.c:746-754 he_ssl_ctx_set_aggressive_mode *)
  | SAggr => (HE_SUCCESS, put_aggr true s)
  (* ssl_ctx.c:757-765 he_ssl_ctx_set_use_pqc *)
  | SPqc b => (HE_SUCCESS, put_pqc b s)
  | SFrag n => do_frag n s
  | SMin a b => do_min (u8 a) (u8 b) s
  | SMax a b => do_max (u8 a) (u8 b) s
  | SStart ws => do_start ctx_start ws s
  | SStartServer ws => do_start ctx_start_server ws s
  end.
Fixpoint srun (s : settings) (l : list sop) : settings := match l with [] => s | o :: l => srun (snd (sstep s o)) l end.
(** The same calls with a NULL context: what they return (every function tests it
    first; callback setters return nothing, given as HE_SUCCESS here). *)
Definition on_null (o : sop) : Z :=
  match o with
  | SState _ | SNudge _ | SInside _ | SOutside _ | SNetcfg _ | SSrvcfg _ | SEvent _ | SAuth _ | SAuthtok _ | SAuthbuf _ | SPopulate _ | SPmtime _ | SPmstate _ => HE_SUCCESS
  | _ => HE_ERR_NULL_POINTER
  end.

(** The queries; booleans are 0 and 1. *)
Inductive squery : Type :=
| QDnSet | QChacha | QCaSet | QCertSet | QStateSet | QInsideSet | QOutsideSet | QNetcfgSet | QNudgeSet | QAuthSet | QRoamOff | QPadding
| QSupported (a b : Z) | QLatest (a b : Z).
Definition bool_of (z : Z) : Z := if z =? 0 then 0 else 1.
(** ssl_ctx.c:430-437 he_ssl_ctx_get_server_dn: the bytes of the string *)
Definition get_dn (s : settings) : bytes := cstr (s_dn s).
Definition answer (s : settings) (q : squery) : Z :=
  match q with
  (* ssl_ctx.c:439-446 he_ssl_ctx_is_server_dn_set *)
  | QDnSet => if is_dn_set (view s) then 1 else 0
  (* ssl_ctx.c:458-465 he_ssl_ctx_get_use_chacha20 *)
  | QChacha => if s_chacha s then 1 else 0
  (* ssl_ctx.c:492-499 he_ssl_ctx_is_ca_set *)
  | QCaSet => bool_of (s_ca s)
  (* ssl_ctx.c:518-525 he_ssl_ctx_is_server_cert_key_set *)
  | QCertSet => if negb (s_cert s =? 0) && negb (s_key s =? 0) then 1 else 0
  (* ssl_ctx.c:551-556 he_ssl_ctx_is_state_change_cb_set *)
  | QStateSet => bool_of (p_state (s_ptrs s))
  (* ssl_ctx.c:567-572 he_ssl_ctx_is_inside_write_cb_set *)
  | QInsideSet => bool_of (p_inside (s_ptrs s))
  (* ssl_ctx.c:583-588 he_ssl_ctx_is_outside_write_cb_set *)
  | QOutsideSet => bool_of (p_outside (s_ptrs s))
  (* ssl_ctx.c:609-614 he_ssl_ctx_is_network_config_ipv4_cb_set *)
  | QNetcfgSet => bool_of (p_netcfg (s_ptrs s))
  (* ssl_ctx.c:625-630 he_ssl_ctx_is_nudge_time_cb_set *)
  | QNudgeSet => bool_of (p_nudge (s_ptrs s))
  (* ssl_ctx.c:668-675 he_ssl_ctx_is_auth_cb_set *)
  | QAuthSet => if negb (p_auth (s_ptrs s) =? 0) || negb (p_authbuf (s_ptrs s) =? 0) then 1 else 0
  (* ssl_ctx.c:717-724 he_ssl_ctx_is_roaming_disabled *)
  | QRoamOff => if s_noroam s then 1 else 0
  (* ssl_ctx.c:737-744 he_ssl_ctx_get_padding_type *)
  | QPadding => s_padding s
  (* ssl_ctx.c:376-418 he_ssl_ctx_is_supported_version, he_ssl_ctx_is_latest_version *)
  | QSupported a b => if is_supported_version (view s) (u8 a) (u8 b) then 1 else 0
  | QLatest a b => if is_latest_version (view s) (u8 a) (u8 b) then 1 else 0
  end.
(** The same with a NULL context.  Two functions return HE_ERR_NULL_POINTER: as a
    bool (518-522, hence true) and as a padding type (737-741; given as the int). *)
Definition null_answer (q : squery) : Z :=
  match q with QCertSet => bool_of HE_ERR_NULL_POINTER | QPadding => HE_ERR_NULL_POINTER | _ => 0 end.

(** ** Connections *)
(** conn.c:176-188: the pointers he_internal_conn_configure copies. *)
Definition copy (from : ptrs) : ptrs :=
  Ptrs (p_state from) (p_nudge from) (p_inside from) (p_outside from) (p_netcfg from) (p_srvcfg from) (p_event from) (p_auth from) (p_authtok from) (p_authbuf from) (p_populate from) (p_pmtime from) (p_pmstate from).
(** conn.c:407-408 he_conn_disconnect *)
Definition cut_off (p : ptrs) : ptrs :=
  Ptrs (p_state p) (p_nudge p) 0 0 (p_netcfg p) (p_srvcfg p) (p_event p) (p_auth p) (p_authtok p) (p_authbuf p) (p_populate p) (p_pmtime p) (p_pmstate p).
(** A host with several contexts and a connection: it changes contexts, connects
    (a call that gets as far as he_internal_conn_configure), disconnects (a call
    that is not refused), and attaches a pointer (conn.c:1118-1127
    he_conn_set_context). *)
Inductive hop : Type := HCtx (i : Z) (o : sop) | HConnect (i : Z) | HDisconnect | HData (p : Z).
Record host := Host { h_ctx : Z -> settings; h_conn : ptrs; h_data : Z }.
Definition host_new : host := Host (fun _ => settings_new) ptrs_null 0.
Definition hstep (h : host) (o : hop) : host :=
  match o with
  | HCtx i o => Host (fun j => if j =? i then snd (sstep (h_ctx h i) o) else h_ctx h j) (h_conn h) (h_data h)
  | HConnect i => Host (h_ctx h) (copy (s_ptrs (h_ctx h i))) (h_data h)
  | HDisconnect => Host (h_ctx h) (cut_off (h_conn h)) (h_data h)
  | HData p => Host (h_ctx h) (h_conn h) (if p =? 0 then h_data h else p)
  end.
Fixpoint hrun (h : host) (l : list hop) : host := match l with [] => h | o :: l => hrun (hstep h o) l end.
