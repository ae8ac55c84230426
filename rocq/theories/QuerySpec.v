(** Vocabulary for C50: what the host has set on a connection stays as it is. *)
From Verif Require Import Base Codes Ctx ConnState ConnSpec CallSpec.

(** The settings other than the username: password, authentication method and
    data, server name, MTU. *)
Definition own_settings (c : conn) := (c_password c, (c_auth_type c, c_auth_buf c, c_auth_len c), c_sni c, c_mtu c).
(** he_conn_get_protocol_version *)
Definition version (c : conn) : Z * Z := (c_vmaj c, c_vmin c).
(** he_conn_get_username *)
Definition name (c : conn) : bytes := cstr (c_username c).
(** The calls that set something. *)
Definition is_setter (o : op) : bool :=
  match o with OSetUsername _ | OSetPassword _ | OSetToken _ | OSetAuthBuf _ | OSetMtu _ | OSetVersion _ _ | OSetSni _ => true | _ => false end.
Definition the_context (o : op) : option ctx :=
  match o with OClientConnect x _ _ | OServerConnect x _ _ => Some x | _ => None end.
(** The username fields a server asks its host about. *)
Definition logins (s : Z) (e : ev) : list bytes := match e with EAuthUser u _ => [u] | _ => [] end.
Fixpoint last_of (l : list bytes) (d : bytes) : bytes := match l with [] => d | u :: l => last_of l (cstr u) end.

(** What the host has chosen so far: it is what the setters accepted last; any
    he_conn_set_username or he_conn_set_password, also a refused one, chooses
    username and password as the method (C23). *)
Record chosen := Chosen { by_password : bytes; by_method : Z; by_data : bytes; by_mtu : Z }.
Definition set_by (o : op) (rc : Z) (c : chosen) : chosen :=
  match o with
  | OSetUsername _ => Chosen (by_password c) HE_AUTH_TYPE_USERPASS (by_data c) (by_mtu c)
  | OSetPassword p => Chosen (if rc =? 0 then firstn 49 (cstr (u8s p)) else by_password c) HE_AUTH_TYPE_USERPASS (by_data c) (by_mtu c)
  | OSetToken b => if rc =? 0 then Chosen (by_password c) HE_AUTH_TYPE_TOKEN (u8s b) (by_mtu c) else c
  | OSetAuthBuf b => if rc =? 0 then Chosen (by_password c) HE_AUTH_TYPE_CB (u8s b) (by_mtu c) else c
  | OSetMtu m => if rc =? 0 then Chosen (by_password c) (by_method c) (by_data c) (u16 m) else c
  | _ => c
  end.
Fixpoint chosen_in (t : trace) : chosen :=
  match t with
  | [] => Chosen [] 0 [] 0
  | (_, ERet o rc) :: past => set_by o rc (chosen_in past)
  | _ :: past => chosen_in past
  end.
(** What a connect that got as far as asking for memory makes of the version: the
    maximum of its context if the major number is 0. *)
Definition version_from (x : ctx) (c : conn) : Z * Z :=
  if c_vmaj c =? 0 then (u8 (x_max_major x), u8 (x_max_minor x)) else (c_vmaj c, c_vmin c).
(** The connection has a TLS session: a connect succeeded and none failed since. *)
Fixpoint connected (t : trace) : bool :=
  match t with
  | [] => false
  | (_, ERet (OClientConnect _ _ _) rc) :: _ | (_, ERet (OServerConnect _ _ _) rc) :: _ => rc =? 0
  | _ :: past => connected past
  end.
(** A connect was called (maybe from a callback). *)
Definition connect_called (t : trace) : bool :=
  existsb (fun x => match snd x with ECall (OClientConnect _ _ _) | ECall (OServerConnect _ _ _) | ENest (OClientConnect _ _ _) | ENest (OServerConnect _ _ _) => true | _ => false end) t.
