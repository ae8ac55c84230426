(** Model of src/he/ssl_ctx.c: the context, its setters, the version range and
    starting a context.  NULL contexts (every function returns at once) are not
    modelled. *)
From Verif Require Import Base Codes.

(** The callbacks of struct he_ssl_ctx / he_conn (he_internal.h:108-133,
    226-251): only whether the pointer is set. *)
Record cbs := Cbs {
  cb_state : bool; cb_nudge : bool; cb_inside : bool; cb_outside : bool;
  cb_netcfg : bool; cb_srvcfg : bool; cb_event : bool;
  cb_auth : bool; cb_authtok : bool; cb_authbuf : bool; cb_populate : bool;
  cb_pmtime : bool; cb_pmstate : bool }.
Definition cbs_none : cbs :=
  Cbs false false false false false false false false false false false false false.

(** he_internal.h:91-151 struct he_ssl_ctx.  [x_wolf] = wolf_ctx is non-NULL;
    [x_io] = the connection type whose I/O callbacks were installed in wolf_ctx
    (ssl_ctx.c:135-141).  The wolf RNG and the certificate contents are not
    modelled. *)
Record ctx := Ctx {
  x_dn : bytes; x_chacha : bool; x_ca : bool; x_cert_key : bool;
  x_type : Z; x_cbs : cbs; x_no_roaming : bool; x_padding : Z; x_aggressive : bool;
  x_pqc : bool; x_wolf : bool; x_io : Z;
  x_min_major : Z; x_min_minor : Z; x_max_major : Z; x_max_minor : Z;
  x_max_frag : Z }.

(** ssl_ctx.c:111-113 he_ssl_ctx_create: calloc. *)
Definition ctx_new : ctx :=
  Ctx (zeros 51) false false false 0 cbs_none false 0 false false false 0 0 0 0 0 0.

Definition set_x_min (a b : Z) (x : ctx) : ctx :=
  Ctx (x_dn x) (x_chacha x) (x_ca x) (x_cert_key x) (x_type x) (x_cbs x) (x_no_roaming x)
      (x_padding x) (x_aggressive x) (x_pqc x) (x_wolf x) (x_io x) a b
      (x_max_major x) (x_max_minor x) (x_max_frag x).
Definition set_x_max (a b : Z) (x : ctx) : ctx :=
  Ctx (x_dn x) (x_chacha x) (x_ca x) (x_cert_key x) (x_type x) (x_cbs x) (x_no_roaming x)
      (x_padding x) (x_aggressive x) (x_pqc x) (x_wolf x) (x_io x)
      (x_min_major x) (x_min_minor x) a b (x_max_frag x).
Definition set_x_wolf (b : bool) (io : Z) (x : ctx) : ctx :=
  Ctx (x_dn x) (x_chacha x) (x_ca x) (x_cert_key x) (x_type x) (x_cbs x) (x_no_roaming x)
      (x_padding x) (x_aggressive x) (x_pqc x) b io
      (x_min_major x) (x_min_minor x) (x_max_major x) (x_max_minor x) (x_max_frag x).

(** ssl_ctx.c:316-326 he_is_valid_wire_protocol_version *)
Definition is_valid_wire_version (ma mi : Z) : bool :=
  negb ((ma <? HE_WIRE_MINIMUM_PROTOCOL_MAJOR_VERSION) ||
        ((ma =? HE_WIRE_MINIMUM_PROTOCOL_MAJOR_VERSION) &&
         (mi <? HE_WIRE_MINIMUM_PROTOCOL_MINOR_VERSION)) ||
        (HE_WIRE_MAXIMUM_PROTOCOL_MAJOR_VERSION <? ma) ||
        ((ma =? HE_WIRE_MAXIMUM_PROTOCOL_MAJOR_VERSION) &&
         (HE_WIRE_MAXIMUM_PROTOCOL_MINOR_VERSION <? mi))).

(** ssl_ctx.c:328-350 *)
Definition ctx_set_min (x : ctx) (ma mi : Z) : Z * ctx :=
  let d := (ma =? 0) && (mi =? 0) in
  let ma := if d then HE_WIRE_MINIMUM_PROTOCOL_MAJOR_VERSION else ma in
  let mi := if d then HE_WIRE_MINIMUM_PROTOCOL_MINOR_VERSION else mi in
  if negb (is_valid_wire_version ma mi) then (HE_ERR_INCORRECT_PROTOCOL_VERSION, x)
  else (HE_SUCCESS, set_x_min ma mi x).

(** ssl_ctx.c:352-374 *)
Definition ctx_set_max (x : ctx) (ma mi : Z) : Z * ctx :=
  let d := (ma =? 0) && (mi =? 0) in
  let ma := if d then HE_WIRE_MAXIMUM_PROTOCOL_MAJOR_VERSION else ma in
  let mi := if d then HE_WIRE_MAXIMUM_PROTOCOL_MINOR_VERSION else mi in
  if negb (is_valid_wire_version ma mi) then (HE_ERR_INCORRECT_PROTOCOL_VERSION, x)
  else (HE_SUCCESS, set_x_max ma mi x).

(** ssl_ctx.c:376-407 he_ssl_ctx_is_supported_version *)
Definition is_supported_version (x : ctx) (ma mi : Z) : bool :=
  if (ma <? x_min_major x) || (x_max_major x <? ma) then false
  else if (ma =? x_min_major x) && (mi <? x_min_minor x) then false
  else if (ma =? x_max_major x) && (x_max_minor x <? mi) then false
  else true.

(** ssl_ctx.c:409-418 *)
Definition is_latest_version (x : ctx) (ma mi : Z) : bool :=
  (ma =? x_max_major x) && (mi =? x_max_minor x).

(** ssl_ctx.c:439-446 he_ssl_ctx_is_server_dn_set *)
Definition is_dn_set (x : ctx) : bool := negb (nth 0 (x_dn x) 0 =? 0).

(** ssl_ctx.c:668-675 he_ssl_ctx_is_auth_cb_set *)
Definition is_auth_cb_set (x : ctx) : bool := cb_auth (x_cbs x) || cb_authbuf (x_cbs x).

(** ssl_ctx.c:55-109 he_ssl_ctx_is_valid_common / _client / _server *)
Definition ctx_valid_common (x : ctx) : Z :=
  if negb (cb_outside (x_cbs x)) then HE_ERR_CONF_OUTSIDE_WRITE_CB_NOT_SET else HE_SUCCESS.
Definition ctx_valid_client (x : ctx) : Z :=
  let res := ctx_valid_common x in
  if negb (res =? HE_SUCCESS) then res
  else if negb (x_ca x) then HE_ERR_CONF_CA_NOT_SET else HE_SUCCESS.
Definition ctx_valid_server (x : ctx) : Z :=
  let res := ctx_valid_common x in
  if negb (res =? HE_SUCCESS) then res
  else if negb (x_cert_key x) then HE_ERR_CONF_CA_NOT_SET
  else if negb (is_auth_cb_set x) then HE_ERR_CONF_AUTH_CB_NOT_SET else HE_SUCCESS.

(** What wolfSSL answers while a context is started. *)
Record wolf_start := WolfStart {
  ws_ctx_new : bool;      (* wolfSSL_CTX_new returned non-NULL *)
  ws_load : Z;            (* wolfSSL_CTX_load_verify_buffer *)
  ws_min : Z;             (* wolfSSL_CTX_SetMinVersion *)
  ws_cert : Z; ws_key : Z; ws_rng : Z;
  ws_cipher : Z; ws_groups : Z; ws_reneg : Z }.

(** wolfssl error codes of ssl_ctx.c:181-194 *)
Definition SSL_BAD_FILETYPE : Z := -5.
Definition SSL_BAD_FILE : Z := -4.
Definition ASN_INPUT_E : Z := -154.
Definition BUFFER_E : Z := -132.

(** ssl_ctx.c:122-150 he_ssl_ctx_start_common *)
Definition ctx_start_common (ws : wolf_start) (x : ctx) : Z * ctx :=
  let x := set_x_min HE_WIRE_MINIMUM_PROTOCOL_MAJOR_VERSION HE_WIRE_MINIMUM_PROTOCOL_MINOR_VERSION x in
  let x := set_x_max HE_WIRE_MAXIMUM_PROTOCOL_MAJOR_VERSION HE_WIRE_MAXIMUM_PROTOCOL_MINOR_VERSION x in
  let x := set_x_wolf (x_wolf x) (x_type x) x in
  if (x_type x =? HE_CONNECTION_TYPE_DATAGRAM) && negb (ws_reneg ws =? SSL_SUCCESS)
  then (HE_ERR_INIT_FAILED, x) else (HE_SUCCESS, x).

(** wolf_ctx after wolfSSL_CTX_new (ssl_ctx.c:167-178, 247-258): for any other
    connection type it keeps its value. *)
Definition ctx_new_wolf (ws : wolf_start) (x : ctx) : ctx :=
  if (x_type x =? HE_CONNECTION_TYPE_STREAM) || (x_type x =? HE_CONNECTION_TYPE_DATAGRAM)
  then set_x_wolf (ws_ctx_new ws) (x_io x) x else x.

(** ssl_ctx.c:152-233 he_ssl_ctx_start *)
Definition ctx_start (ws : wolf_start) (x : ctx) : Z * ctx :=
  let res := ctx_valid_client x in
  if negb (res =? HE_SUCCESS) then (res, x) else
  let x := ctx_new_wolf ws x in
  if negb (x_wolf x) then (HE_ERR_INIT_FAILED, x) else
  if negb (ws_load ws =? SSL_SUCCESS) then
    (if ws_load ws =? SSL_BAD_FILETYPE then HE_ERR_SSL_BAD_FILETYPE
     else if ws_load ws =? SSL_BAD_FILE then HE_ERR_SSL_BAD_FILE
     else if ws_load ws =? MEMORY_E then HE_ERR_SSL_OUT_OF_MEMORY
     else if ws_load ws =? ASN_INPUT_E then HE_ERR_SSL_ASN_INPUT
     else if ws_load ws =? BUFFER_E then HE_ERR_SSL_BUFFER
     else HE_ERR_SSL_CERT, x)
  else if negb (x_type x =? HE_CONNECTION_TYPE_STREAM) && negb (ws_min ws =? SSL_SUCCESS)
  then (HE_ERR_INIT_FAILED, x)
  else if negb (ws_cipher ws =? SSL_SUCCESS) then (HE_ERR_INIT_FAILED, x)
  else ctx_start_common ws x.

(** ssl_ctx.c:235-309 he_ssl_ctx_start_server *)
Definition ctx_start_server (ws : wolf_start) (x : ctx) : Z * ctx :=
  let res := ctx_valid_server x in
  if negb (res =? HE_SUCCESS) then (res, x) else
  let x := ctx_new_wolf ws x in
  if negb (x_wolf x) then (HE_ERR_INIT_FAILED, x)
  else if negb (ws_cert ws =? SSL_SUCCESS) then (HE_ERR_INIT_FAILED, x)
  else if negb (ws_key ws =? SSL_SUCCESS) then (HE_ERR_INIT_FAILED, x)
  else if negb (ws_rng ws =? 0) then (HE_ERR_INIT_FAILED, x)
  else if negb (ws_cipher ws =? SSL_SUCCESS) then (HE_ERR_INIT_FAILED, x)
  else if negb (ws_groups ws =? SSL_SUCCESS) then (HE_ERR_INIT_FAILED, x)
  else ctx_start_common ws x.

(** ssl_ctx.c:515-529 he_ssl_ctx_set_connection_type *)
Definition ctx_set_type (x : ctx) (t : Z) : Z * ctx :=
  if negb (t =? HE_CONNECTION_TYPE_STREAM) && negb (t =? HE_CONNECTION_TYPE_DATAGRAM)
  then (HE_ERR_INVALID_CONNECTION_TYPE, x)
  else (HE_SUCCESS, Ctx (x_dn x) (x_chacha x) (x_ca x) (x_cert_key x) t (x_cbs x) (x_no_roaming x)
      (x_padding x) (x_aggressive x) (x_pqc x) (x_wolf x) (x_io x)
      (x_min_major x) (x_min_minor x) (x_max_major x) (x_max_minor x) (x_max_frag x)).

(** ssl_ctx.c:768-777 he_ssl_ctx_set_max_frag_entries *)
Definition ctx_set_max_frag (x : ctx) (n : Z) : Z * ctx :=
  let n := if MAX_FRAGMENT_ENTRIES <? n then MAX_FRAGMENT_ENTRIES else n in
  (HE_SUCCESS, Ctx (x_dn x) (x_chacha x) (x_ca x) (x_cert_key x) (x_type x) (x_cbs x) (x_no_roaming x)
      (x_padding x) (x_aggressive x) (x_pqc x) (x_wolf x) (x_io x)
      (x_min_major x) (x_min_minor x) (x_max_major x) (x_max_minor x) n).

(** ssl_ctx.c:480-505 he_ssl_ctx_set_ca / _set_server_cert_key_files (non-NULL
    pointers), 532-734 callback setters, 736-766 flags. *)
Definition ctx_set_ca (x : ctx) (length : Z) : Z * ctx :=
  if length =? 0 then (HE_ERR_ZERO_SIZE, x)
  else (HE_SUCCESS, Ctx (x_dn x) (x_chacha x) true (x_cert_key x) (x_type x) (x_cbs x) (x_no_roaming x)
      (x_padding x) (x_aggressive x) (x_pqc x) (x_wolf x) (x_io x)
      (x_min_major x) (x_min_minor x) (x_max_major x) (x_max_minor x) (x_max_frag x)).
Definition ctx_set_cert_key (x : ctx) : Z * ctx :=
  (HE_SUCCESS, Ctx (x_dn x) (x_chacha x) (x_ca x) true (x_type x) (x_cbs x) (x_no_roaming x)
      (x_padding x) (x_aggressive x) (x_pqc x) (x_wolf x) (x_io x)
      (x_min_major x) (x_min_minor x) (x_max_major x) (x_max_minor x) (x_max_frag x)).
Definition ctx_set_cbs (x : ctx) (k : cbs) : Z * ctx :=
  (HE_SUCCESS, Ctx (x_dn x) (x_chacha x) (x_ca x) (x_cert_key x) (x_type x) k (x_no_roaming x)
      (x_padding x) (x_aggressive x) (x_pqc x) (x_wolf x) (x_io x)
      (x_min_major x) (x_min_minor x) (x_max_major x) (x_max_minor x) (x_max_frag x)).
Definition ctx_set_flags (x : ctx) (noroam : bool) (pad : Z) (aggr pqc chacha : bool) : Z * ctx :=
  (HE_SUCCESS, Ctx (x_dn x) chacha (x_ca x) (x_cert_key x) (x_type x) (x_cbs x) noroam
      pad aggr pqc (x_wolf x) (x_io x)
      (x_min_major x) (x_min_minor x) (x_max_major x) (x_max_minor x) (x_max_frag x)).
