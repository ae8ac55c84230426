(** Model of src/he/client.c: he_client_connect, he_client_disconnect,
    he_client_is_config_valid (he_client_create and he_client_destroy are in
    [Heap.v]).  NULL clients are not modelled. *)
From Verif Require Import Base Codes Ctx ConnState Conn.

(** struct he_client (he_internal.h:366-376) *)
Record client := Client { k_ctx : ctx; k_world : world; k_in : chain; k_out : chain }.

(** client.c:59-83 he_client_connect.  [ws]: what wolfSSL answers while the context is
    started.  [None]: the call does not return (undefined behaviour, or an endless loop of wolfSSL). *)
Definition he_client_connect (E : env) (ws : wolf_start) (k : client) : option (Z * client) :=
  let (res, x) := ctx_start ws (k_ctx k) in
  if negb (res =? HE_SUCCESS) then Some (res, Client x (k_world k) (k_in k) (k_out k)) else
  match api E (ret tt) (OClientConnect x (k_in k) (k_out k)) (k_world k) with
  | Done res w => Some (if negb (res =? HE_SUCCESS) then res else HE_SUCCESS, Client x w (k_in k) (k_out k))
  | Stuck _ _ => None
  end.

(** ssl_ctx.c:311-314 he_ssl_ctx_stop *)
Definition he_ssl_ctx_stop (x : ctx) : Z := HE_SUCCESS.
(** client.c:85-96 he_client_disconnect *)
Definition he_client_disconnect (E : env) (k : client) : option (Z * client) :=
  let res := he_ssl_ctx_stop (k_ctx k) in
  if negb (res =? HE_SUCCESS) then Some (res, k) else
  match api E (ret tt) ODisconnect (k_world k) with
  | Done res w => Some (res, Client (k_ctx k) w (k_in k) (k_out k))
  | Stuck _ _ => None
  end.

(** client.c:98-110 he_client_is_config_valid; [None] as above. *)
Definition he_client_is_config_valid (k : client) : option Z :=
  let ret := ctx_valid_client (k_ctx k) in
  if negb (ret =? HE_SUCCESS) then Some ret else
  match is_valid_client (k_ctx k) (w_c (k_world k)) with Val rc => Some rc | Ub _ => None end.
