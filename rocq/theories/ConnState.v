(** The connection record, the log of observable actions, the environment and
    the monad in which the connection code is written. *)
From Verif Require Import Base Codes Ctx Frag.

(** ** Plugin chains (src/he/plugin_chain.c, include/he_plugin.h) *)

(** plugin_struct_t: an identity and which of the two functions are non-NULL. *)
Record plug := Plug { pl_id : Z; pl_in : bool; pl_out : bool }.
(** struct he_plugin_chain (he_internal.h:297-300): the linked list of nodes,
    each with its plugin (None = NULL).  The NULL chain is []. *)
Definition chain := list (option plug).

(** ** Received data (he_internal.h: incoming_data, incoming_data_length,
    packet_seen, incoming_data_left_to_read, incoming_data_read_offset_ptr).
    The pointers are the bytes they point to.  [rx_live] is not a field of the
    code: it records whether the buffer still belongs to the call that set it;
    reading through the pointers after that call has returned is the outcome
    [UB_stale]. *)
Record rx := Rx {
  rx_data : option bytes; rx_seen : bool; rx_left : Z; rx_rest : option bytes; rx_live : bool }.
Definition set_rx_seen (b : bool) (r : rx) : rx :=
  Rx (rx_data r) b (rx_left r) (rx_rest r) (rx_live r).
Definition set_rx_live (b : bool) (r : rx) : rx :=
  Rx (rx_data r) (rx_seen r) (rx_left r) (rx_rest r) b.

(** he_internal.h:153-166 he_internal_pmtud_t *)
Record pmtud := Pmtud {
  pm_state : Z;
  pm_eff : Z;
  pm_base : Z;
  pm_count : Z;
  pm_size : Z;
  pm_big : bool;
  pm_id : Z }.

Definition set_pm_state (v : Z) (p : pmtud) : pmtud := Pmtud v (pm_eff p) (pm_base p) (pm_count p)
    (pm_size p) (pm_big p) (pm_id p).
Definition set_pm_eff (v : Z) (p : pmtud) : pmtud := Pmtud (pm_state p) v (pm_base p) (pm_count p)
    (pm_size p) (pm_big p) (pm_id p).
Definition set_pm_base (v : Z) (p : pmtud) : pmtud := Pmtud (pm_state p) (pm_eff p) v (pm_count p)
    (pm_size p) (pm_big p) (pm_id p).
Definition set_pm_count (v : Z) (p : pmtud) : pmtud := Pmtud (pm_state p) (pm_eff p) (pm_base p) v
    (pm_size p) (pm_big p) (pm_id p).
Definition set_pm_size (v : Z) (p : pmtud) : pmtud := Pmtud (pm_state p) (pm_eff p) (pm_base p)
    (pm_count p) v (pm_big p) (pm_id p).
Definition set_pm_big (v : bool) (p : pmtud) : pmtud := Pmtud (pm_state p) (pm_eff p) (pm_base p)
    (pm_count p) (pm_size p) v (pm_id p).
Definition set_pm_id (v : Z) (p : pmtud) : pmtud := Pmtud (pm_state p) (pm_eff p) (pm_base p)
    (pm_count p) (pm_size p) (pm_big p) v.

(** he_internal.h:170-295 struct he_conn.  write_buffer (unused by the code),
    data and wolf_rng are left out.  [c_wolf]: wolf_ssl is non-NULL;
    [c_wolf_ctx]: its I/O contexts have been set (conn.c:277-278); [c_io]: which
    I/O callbacks wolf_ssl has (from the context's wolf_ctx). *)
Record conn := Conn {
  c_is_server : bool;
  c_in_chain : chain;
  c_out_chain : chain;
  c_auth_type : Z;
  c_username : bytes;
  c_password : bytes;
  c_sni : bytes;
  c_auth_buf : bytes;
  c_auth_len : Z;
  c_mtu : Z;
  c_no_roam : bool;
  c_padding : Z;
  c_aggr : bool;
  c_pqc : bool;
  c_ctype : Z;
  c_cbs : cbs;
  c_vmaj : Z;
  c_vmin : Z;
  c_wolf : bool;
  c_wolf_ctx : bool;
  c_io : Z;
  c_state : Z;
  c_timeout : Z;
  c_rx : rx;
  c_session : Z;
  c_pending : Z;
  c_first : bool;
  c_nudging : bool;
  c_prog : bool;
  c_due : bool;
  c_ping_next : Z;
  c_ping_pend : Z;
  c_pm : pmtud;
  c_frag_next : Z;
  c_frag_tbl : option table;
  c_wolf_err : Z }.

Definition set_is_server (v : bool) (c : conn) : conn :=
  Conn v (c_in_chain c) (c_out_chain c) (c_auth_type c) (c_username c) (c_password c) (c_sni c)
    (c_auth_buf c) (c_auth_len c) (c_mtu c) (c_no_roam c) (c_padding c) (c_aggr c) (c_pqc c)
    (c_ctype c) (c_cbs c) (c_vmaj c) (c_vmin c) (c_wolf c) (c_wolf_ctx c) (c_io c) (c_state c)
    (c_timeout c) (c_rx c) (c_session c) (c_pending c) (c_first c) (c_nudging c) (c_prog c) (c_due
    c) (c_ping_next c) (c_ping_pend c) (c_pm c) (c_frag_next c) (c_frag_tbl c) (c_wolf_err c).
Definition set_in_chain (v : chain) (c : conn) : conn :=
  Conn (c_is_server c) v (c_out_chain c) (c_auth_type c) (c_username c) (c_password c) (c_sni c)
    (c_auth_buf c) (c_auth_len c) (c_mtu c) (c_no_roam c) (c_padding c) (c_aggr c) (c_pqc c)
    (c_ctype c) (c_cbs c) (c_vmaj c) (c_vmin c) (c_wolf c) (c_wolf_ctx c) (c_io c) (c_state c)
    (c_timeout c) (c_rx c) (c_session c) (c_pending c) (c_first c) (c_nudging c) (c_prog c) (c_due
    c) (c_ping_next c) (c_ping_pend c) (c_pm c) (c_frag_next c) (c_frag_tbl c) (c_wolf_err c).
Definition set_out_chain (v : chain) (c : conn) : conn :=
  Conn (c_is_server c) (c_in_chain c) v (c_auth_type c) (c_username c) (c_password c) (c_sni c)
    (c_auth_buf c) (c_auth_len c) (c_mtu c) (c_no_roam c) (c_padding c) (c_aggr c) (c_pqc c)
    (c_ctype c) (c_cbs c) (c_vmaj c) (c_vmin c) (c_wolf c) (c_wolf_ctx c) (c_io c) (c_state c)
    (c_timeout c) (c_rx c) (c_session c) (c_pending c) (c_first c) (c_nudging c) (c_prog c) (c_due
    c) (c_ping_next c) (c_ping_pend c) (c_pm c) (c_frag_next c) (c_frag_tbl c) (c_wolf_err c).
Definition set_auth_type (v : Z) (c : conn) : conn :=
  Conn (c_is_server c) (c_in_chain c) (c_out_chain c) v (c_username c) (c_password c) (c_sni c)
    (c_auth_buf c) (c_auth_len c) (c_mtu c) (c_no_roam c) (c_padding c) (c_aggr c) (c_pqc c)
    (c_ctype c) (c_cbs c) (c_vmaj c) (c_vmin c) (c_wolf c) (c_wolf_ctx c) (c_io c) (c_state c)
    (c_timeout c) (c_rx c) (c_session c) (c_pending c) (c_first c) (c_nudging c) (c_prog c) (c_due
    c) (c_ping_next c) (c_ping_pend c) (c_pm c) (c_frag_next c) (c_frag_tbl c) (c_wolf_err c).
Definition set_username (v : bytes) (c : conn) : conn :=
  Conn (c_is_server c) (c_in_chain c) (c_out_chain c) (c_auth_type c) v (c_password c) (c_sni c)
    (c_auth_buf c) (c_auth_len c) (c_mtu c) (c_no_roam c) (c_padding c) (c_aggr c) (c_pqc c)
    (c_ctype c) (c_cbs c) (c_vmaj c) (c_vmin c) (c_wolf c) (c_wolf_ctx c) (c_io c) (c_state c)
    (c_timeout c) (c_rx c) (c_session c) (c_pending c) (c_first c) (c_nudging c) (c_prog c) (c_due
    c) (c_ping_next c) (c_ping_pend c) (c_pm c) (c_frag_next c) (c_frag_tbl c) (c_wolf_err c).
Definition set_password (v : bytes) (c : conn) : conn :=
  Conn (c_is_server c) (c_in_chain c) (c_out_chain c) (c_auth_type c) (c_username c) v (c_sni c)
    (c_auth_buf c) (c_auth_len c) (c_mtu c) (c_no_roam c) (c_padding c) (c_aggr c) (c_pqc c)
    (c_ctype c) (c_cbs c) (c_vmaj c) (c_vmin c) (c_wolf c) (c_wolf_ctx c) (c_io c) (c_state c)
    (c_timeout c) (c_rx c) (c_session c) (c_pending c) (c_first c) (c_nudging c) (c_prog c) (c_due
    c) (c_ping_next c) (c_ping_pend c) (c_pm c) (c_frag_next c) (c_frag_tbl c) (c_wolf_err c).
Definition set_sni (v : bytes) (c : conn) : conn :=
  Conn (c_is_server c) (c_in_chain c) (c_out_chain c) (c_auth_type c) (c_username c) (c_password c)
    v (c_auth_buf c) (c_auth_len c) (c_mtu c) (c_no_roam c) (c_padding c) (c_aggr c) (c_pqc c)
    (c_ctype c) (c_cbs c) (c_vmaj c) (c_vmin c) (c_wolf c) (c_wolf_ctx c) (c_io c) (c_state c)
    (c_timeout c) (c_rx c) (c_session c) (c_pending c) (c_first c) (c_nudging c) (c_prog c) (c_due
    c) (c_ping_next c) (c_ping_pend c) (c_pm c) (c_frag_next c) (c_frag_tbl c) (c_wolf_err c).
Definition set_auth_buf (v : bytes) (c : conn) : conn :=
  Conn (c_is_server c) (c_in_chain c) (c_out_chain c) (c_auth_type c) (c_username c) (c_password c)
    (c_sni c) v (c_auth_len c) (c_mtu c) (c_no_roam c) (c_padding c) (c_aggr c) (c_pqc c) (c_ctype
    c) (c_cbs c) (c_vmaj c) (c_vmin c) (c_wolf c) (c_wolf_ctx c) (c_io c) (c_state c) (c_timeout c)
    (c_rx c) (c_session c) (c_pending c) (c_first c) (c_nudging c) (c_prog c) (c_due c) (c_ping_next
    c) (c_ping_pend c) (c_pm c) (c_frag_next c) (c_frag_tbl c) (c_wolf_err c).
Definition set_auth_len (v : Z) (c : conn) : conn :=
  Conn (c_is_server c) (c_in_chain c) (c_out_chain c) (c_auth_type c) (c_username c) (c_password c)
    (c_sni c) (c_auth_buf c) v (c_mtu c) (c_no_roam c) (c_padding c) (c_aggr c) (c_pqc c) (c_ctype
    c) (c_cbs c) (c_vmaj c) (c_vmin c) (c_wolf c) (c_wolf_ctx c) (c_io c) (c_state c) (c_timeout c)
    (c_rx c) (c_session c) (c_pending c) (c_first c) (c_nudging c) (c_prog c) (c_due c) (c_ping_next
    c) (c_ping_pend c) (c_pm c) (c_frag_next c) (c_frag_tbl c) (c_wolf_err c).
Definition set_mtu (v : Z) (c : conn) : conn :=
  Conn (c_is_server c) (c_in_chain c) (c_out_chain c) (c_auth_type c) (c_username c) (c_password c)
    (c_sni c) (c_auth_buf c) (c_auth_len c) v (c_no_roam c) (c_padding c) (c_aggr c) (c_pqc c)
    (c_ctype c) (c_cbs c) (c_vmaj c) (c_vmin c) (c_wolf c) (c_wolf_ctx c) (c_io c) (c_state c)
    (c_timeout c) (c_rx c) (c_session c) (c_pending c) (c_first c) (c_nudging c) (c_prog c) (c_due
    c) (c_ping_next c) (c_ping_pend c) (c_pm c) (c_frag_next c) (c_frag_tbl c) (c_wolf_err c).
Definition set_no_roam (v : bool) (c : conn) : conn :=
  Conn (c_is_server c) (c_in_chain c) (c_out_chain c) (c_auth_type c) (c_username c) (c_password c)
    (c_sni c) (c_auth_buf c) (c_auth_len c) (c_mtu c) v (c_padding c) (c_aggr c) (c_pqc c) (c_ctype
    c) (c_cbs c) (c_vmaj c) (c_vmin c) (c_wolf c) (c_wolf_ctx c) (c_io c) (c_state c) (c_timeout c)
    (c_rx c) (c_session c) (c_pending c) (c_first c) (c_nudging c) (c_prog c) (c_due c) (c_ping_next
    c) (c_ping_pend c) (c_pm c) (c_frag_next c) (c_frag_tbl c) (c_wolf_err c).
Definition set_padding (v : Z) (c : conn) : conn :=
  Conn (c_is_server c) (c_in_chain c) (c_out_chain c) (c_auth_type c) (c_username c) (c_password c)
    (c_sni c) (c_auth_buf c) (c_auth_len c) (c_mtu c) (c_no_roam c) v (c_aggr c) (c_pqc c) (c_ctype
    c) (c_cbs c) (c_vmaj c) (c_vmin c) (c_wolf c) (c_wolf_ctx c) (c_io c) (c_state c) (c_timeout c)
    (c_rx c) (c_session c) (c_pending c) (c_first c) (c_nudging c) (c_prog c) (c_due c) (c_ping_next
    c) (c_ping_pend c) (c_pm c) (c_frag_next c) (c_frag_tbl c) (c_wolf_err c).
Definition set_aggr (v : bool) (c : conn) : conn :=
  Conn (c_is_server c) (c_in_chain c) (c_out_chain c) (c_auth_type c) (c_username c) (c_password c)
    (c_sni c) (c_auth_buf c) (c_auth_len c) (c_mtu c) (c_no_roam c) (c_padding c) v (c_pqc c)
    (c_ctype c) (c_cbs c) (c_vmaj c) (c_vmin c) (c_wolf c) (c_wolf_ctx c) (c_io c) (c_state c)
    (c_timeout c) (c_rx c) (c_session c) (c_pending c) (c_first c) (c_nudging c) (c_prog c) (c_due
    c) (c_ping_next c) (c_ping_pend c) (c_pm c) (c_frag_next c) (c_frag_tbl c) (c_wolf_err c).
Definition set_pqc (v : bool) (c : conn) : conn :=
  Conn (c_is_server c) (c_in_chain c) (c_out_chain c) (c_auth_type c) (c_username c) (c_password c)
    (c_sni c) (c_auth_buf c) (c_auth_len c) (c_mtu c) (c_no_roam c) (c_padding c) (c_aggr c) v
    (c_ctype c) (c_cbs c) (c_vmaj c) (c_vmin c) (c_wolf c) (c_wolf_ctx c) (c_io c) (c_state c)
    (c_timeout c) (c_rx c) (c_session c) (c_pending c) (c_first c) (c_nudging c) (c_prog c) (c_due
    c) (c_ping_next c) (c_ping_pend c) (c_pm c) (c_frag_next c) (c_frag_tbl c) (c_wolf_err c).
Definition set_ctype (v : Z) (c : conn) : conn :=
  Conn (c_is_server c) (c_in_chain c) (c_out_chain c) (c_auth_type c) (c_username c) (c_password c)
    (c_sni c) (c_auth_buf c) (c_auth_len c) (c_mtu c) (c_no_roam c) (c_padding c) (c_aggr c) (c_pqc
    c) v (c_cbs c) (c_vmaj c) (c_vmin c) (c_wolf c) (c_wolf_ctx c) (c_io c) (c_state c) (c_timeout
    c) (c_rx c) (c_session c) (c_pending c) (c_first c) (c_nudging c) (c_prog c) (c_due c)
    (c_ping_next c) (c_ping_pend c) (c_pm c) (c_frag_next c) (c_frag_tbl c) (c_wolf_err c).
Definition set_cbs (v : cbs) (c : conn) : conn :=
  Conn (c_is_server c) (c_in_chain c) (c_out_chain c) (c_auth_type c) (c_username c) (c_password c)
    (c_sni c) (c_auth_buf c) (c_auth_len c) (c_mtu c) (c_no_roam c) (c_padding c) (c_aggr c) (c_pqc
    c) (c_ctype c) v (c_vmaj c) (c_vmin c) (c_wolf c) (c_wolf_ctx c) (c_io c) (c_state c) (c_timeout
    c) (c_rx c) (c_session c) (c_pending c) (c_first c) (c_nudging c) (c_prog c) (c_due c)
    (c_ping_next c) (c_ping_pend c) (c_pm c) (c_frag_next c) (c_frag_tbl c) (c_wolf_err c).
Definition set_vmaj (v : Z) (c : conn) : conn :=
  Conn (c_is_server c) (c_in_chain c) (c_out_chain c) (c_auth_type c) (c_username c) (c_password c)
    (c_sni c) (c_auth_buf c) (c_auth_len c) (c_mtu c) (c_no_roam c) (c_padding c) (c_aggr c) (c_pqc
    c) (c_ctype c) (c_cbs c) v (c_vmin c) (c_wolf c) (c_wolf_ctx c) (c_io c) (c_state c) (c_timeout
    c) (c_rx c) (c_session c) (c_pending c) (c_first c) (c_nudging c) (c_prog c) (c_due c)
    (c_ping_next c) (c_ping_pend c) (c_pm c) (c_frag_next c) (c_frag_tbl c) (c_wolf_err c).
Definition set_vmin (v : Z) (c : conn) : conn :=
  Conn (c_is_server c) (c_in_chain c) (c_out_chain c) (c_auth_type c) (c_username c) (c_password c)
    (c_sni c) (c_auth_buf c) (c_auth_len c) (c_mtu c) (c_no_roam c) (c_padding c) (c_aggr c) (c_pqc
    c) (c_ctype c) (c_cbs c) (c_vmaj c) v (c_wolf c) (c_wolf_ctx c) (c_io c) (c_state c) (c_timeout
    c) (c_rx c) (c_session c) (c_pending c) (c_first c) (c_nudging c) (c_prog c) (c_due c)
    (c_ping_next c) (c_ping_pend c) (c_pm c) (c_frag_next c) (c_frag_tbl c) (c_wolf_err c).
Definition set_wolf (v : bool) (c : conn) : conn :=
  Conn (c_is_server c) (c_in_chain c) (c_out_chain c) (c_auth_type c) (c_username c) (c_password c)
    (c_sni c) (c_auth_buf c) (c_auth_len c) (c_mtu c) (c_no_roam c) (c_padding c) (c_aggr c) (c_pqc
    c) (c_ctype c) (c_cbs c) (c_vmaj c) (c_vmin c) v (c_wolf_ctx c) (c_io c) (c_state c) (c_timeout
    c) (c_rx c) (c_session c) (c_pending c) (c_first c) (c_nudging c) (c_prog c) (c_due c)
    (c_ping_next c) (c_ping_pend c) (c_pm c) (c_frag_next c) (c_frag_tbl c) (c_wolf_err c).
Definition set_wolf_ctx (v : bool) (c : conn) : conn :=
  Conn (c_is_server c) (c_in_chain c) (c_out_chain c) (c_auth_type c) (c_username c) (c_password c)
    (c_sni c) (c_auth_buf c) (c_auth_len c) (c_mtu c) (c_no_roam c) (c_padding c) (c_aggr c) (c_pqc
    c) (c_ctype c) (c_cbs c) (c_vmaj c) (c_vmin c) (c_wolf c) v (c_io c) (c_state c) (c_timeout c)
    (c_rx c) (c_session c) (c_pending c) (c_first c) (c_nudging c) (c_prog c) (c_due c) (c_ping_next
    c) (c_ping_pend c) (c_pm c) (c_frag_next c) (c_frag_tbl c) (c_wolf_err c).
Definition set_io (v : Z) (c : conn) : conn :=
  Conn (c_is_server c) (c_in_chain c) (c_out_chain c) (c_auth_type c) (c_username c) (c_password c)
    (c_sni c) (c_auth_buf c) (c_auth_len c) (c_mtu c) (c_no_roam c) (c_padding c) (c_aggr c) (c_pqc
    c) (c_ctype c) (c_cbs c) (c_vmaj c) (c_vmin c) (c_wolf c) (c_wolf_ctx c) v (c_state c)
    (c_timeout c) (c_rx c) (c_session c) (c_pending c) (c_first c) (c_nudging c) (c_prog c) (c_due
    c) (c_ping_next c) (c_ping_pend c) (c_pm c) (c_frag_next c) (c_frag_tbl c) (c_wolf_err c).
Definition set_state (v : Z) (c : conn) : conn :=
  Conn (c_is_server c) (c_in_chain c) (c_out_chain c) (c_auth_type c) (c_username c) (c_password c)
    (c_sni c) (c_auth_buf c) (c_auth_len c) (c_mtu c) (c_no_roam c) (c_padding c) (c_aggr c) (c_pqc
    c) (c_ctype c) (c_cbs c) (c_vmaj c) (c_vmin c) (c_wolf c) (c_wolf_ctx c) (c_io c) v (c_timeout
    c) (c_rx c) (c_session c) (c_pending c) (c_first c) (c_nudging c) (c_prog c) (c_due c)
    (c_ping_next c) (c_ping_pend c) (c_pm c) (c_frag_next c) (c_frag_tbl c) (c_wolf_err c).
Definition set_timeout (v : Z) (c : conn) : conn :=
  Conn (c_is_server c) (c_in_chain c) (c_out_chain c) (c_auth_type c) (c_username c) (c_password c)
    (c_sni c) (c_auth_buf c) (c_auth_len c) (c_mtu c) (c_no_roam c) (c_padding c) (c_aggr c) (c_pqc
    c) (c_ctype c) (c_cbs c) (c_vmaj c) (c_vmin c) (c_wolf c) (c_wolf_ctx c) (c_io c) (c_state c) v
    (c_rx c) (c_session c) (c_pending c) (c_first c) (c_nudging c) (c_prog c) (c_due c) (c_ping_next
    c) (c_ping_pend c) (c_pm c) (c_frag_next c) (c_frag_tbl c) (c_wolf_err c).
Definition set_rx (v : rx) (c : conn) : conn :=
  Conn (c_is_server c) (c_in_chain c) (c_out_chain c) (c_auth_type c) (c_username c) (c_password c)
    (c_sni c) (c_auth_buf c) (c_auth_len c) (c_mtu c) (c_no_roam c) (c_padding c) (c_aggr c) (c_pqc
    c) (c_ctype c) (c_cbs c) (c_vmaj c) (c_vmin c) (c_wolf c) (c_wolf_ctx c) (c_io c) (c_state c)
    (c_timeout c) v (c_session c) (c_pending c) (c_first c) (c_nudging c) (c_prog c) (c_due c)
    (c_ping_next c) (c_ping_pend c) (c_pm c) (c_frag_next c) (c_frag_tbl c) (c_wolf_err c).
Definition set_session (v : Z) (c : conn) : conn :=
  Conn (c_is_server c) (c_in_chain c) (c_out_chain c) (c_auth_type c) (c_username c) (c_password c)
    (c_sni c) (c_auth_buf c) (c_auth_len c) (c_mtu c) (c_no_roam c) (c_padding c) (c_aggr c) (c_pqc
    c) (c_ctype c) (c_cbs c) (c_vmaj c) (c_vmin c) (c_wolf c) (c_wolf_ctx c) (c_io c) (c_state c)
    (c_timeout c) (c_rx c) v (c_pending c) (c_first c) (c_nudging c) (c_prog c) (c_due c)
    (c_ping_next c) (c_ping_pend c) (c_pm c) (c_frag_next c) (c_frag_tbl c) (c_wolf_err c).
Definition set_pending (v : Z) (c : conn) : conn :=
  Conn (c_is_server c) (c_in_chain c) (c_out_chain c) (c_auth_type c) (c_username c) (c_password c)
    (c_sni c) (c_auth_buf c) (c_auth_len c) (c_mtu c) (c_no_roam c) (c_padding c) (c_aggr c) (c_pqc
    c) (c_ctype c) (c_cbs c) (c_vmaj c) (c_vmin c) (c_wolf c) (c_wolf_ctx c) (c_io c) (c_state c)
    (c_timeout c) (c_rx c) (c_session c) v (c_first c) (c_nudging c) (c_prog c) (c_due c)
    (c_ping_next c) (c_ping_pend c) (c_pm c) (c_frag_next c) (c_frag_tbl c) (c_wolf_err c).
Definition set_first (v : bool) (c : conn) : conn :=
  Conn (c_is_server c) (c_in_chain c) (c_out_chain c) (c_auth_type c) (c_username c) (c_password c)
    (c_sni c) (c_auth_buf c) (c_auth_len c) (c_mtu c) (c_no_roam c) (c_padding c) (c_aggr c) (c_pqc
    c) (c_ctype c) (c_cbs c) (c_vmaj c) (c_vmin c) (c_wolf c) (c_wolf_ctx c) (c_io c) (c_state c)
    (c_timeout c) (c_rx c) (c_session c) (c_pending c) v (c_nudging c) (c_prog c) (c_due c)
    (c_ping_next c) (c_ping_pend c) (c_pm c) (c_frag_next c) (c_frag_tbl c) (c_wolf_err c).
Definition set_nudging (v : bool) (c : conn) : conn :=
  Conn (c_is_server c) (c_in_chain c) (c_out_chain c) (c_auth_type c) (c_username c) (c_password c)
    (c_sni c) (c_auth_buf c) (c_auth_len c) (c_mtu c) (c_no_roam c) (c_padding c) (c_aggr c) (c_pqc
    c) (c_ctype c) (c_cbs c) (c_vmaj c) (c_vmin c) (c_wolf c) (c_wolf_ctx c) (c_io c) (c_state c)
    (c_timeout c) (c_rx c) (c_session c) (c_pending c) (c_first c) v (c_prog c) (c_due c)
    (c_ping_next c) (c_ping_pend c) (c_pm c) (c_frag_next c) (c_frag_tbl c) (c_wolf_err c).
Definition set_prog (v : bool) (c : conn) : conn :=
  Conn (c_is_server c) (c_in_chain c) (c_out_chain c) (c_auth_type c) (c_username c) (c_password c)
    (c_sni c) (c_auth_buf c) (c_auth_len c) (c_mtu c) (c_no_roam c) (c_padding c) (c_aggr c) (c_pqc
    c) (c_ctype c) (c_cbs c) (c_vmaj c) (c_vmin c) (c_wolf c) (c_wolf_ctx c) (c_io c) (c_state c)
    (c_timeout c) (c_rx c) (c_session c) (c_pending c) (c_first c) (c_nudging c) v (c_due c)
    (c_ping_next c) (c_ping_pend c) (c_pm c) (c_frag_next c) (c_frag_tbl c) (c_wolf_err c).
Definition set_due (v : bool) (c : conn) : conn :=
  Conn (c_is_server c) (c_in_chain c) (c_out_chain c) (c_auth_type c) (c_username c) (c_password c)
    (c_sni c) (c_auth_buf c) (c_auth_len c) (c_mtu c) (c_no_roam c) (c_padding c) (c_aggr c) (c_pqc
    c) (c_ctype c) (c_cbs c) (c_vmaj c) (c_vmin c) (c_wolf c) (c_wolf_ctx c) (c_io c) (c_state c)
    (c_timeout c) (c_rx c) (c_session c) (c_pending c) (c_first c) (c_nudging c) (c_prog c) v
    (c_ping_next c) (c_ping_pend c) (c_pm c) (c_frag_next c) (c_frag_tbl c) (c_wolf_err c).
Definition set_ping_next (v : Z) (c : conn) : conn :=
  Conn (c_is_server c) (c_in_chain c) (c_out_chain c) (c_auth_type c) (c_username c) (c_password c)
    (c_sni c) (c_auth_buf c) (c_auth_len c) (c_mtu c) (c_no_roam c) (c_padding c) (c_aggr c) (c_pqc
    c) (c_ctype c) (c_cbs c) (c_vmaj c) (c_vmin c) (c_wolf c) (c_wolf_ctx c) (c_io c) (c_state c)
    (c_timeout c) (c_rx c) (c_session c) (c_pending c) (c_first c) (c_nudging c) (c_prog c) (c_due
    c) v (c_ping_pend c) (c_pm c) (c_frag_next c) (c_frag_tbl c) (c_wolf_err c).
Definition set_ping_pend (v : Z) (c : conn) : conn :=
  Conn (c_is_server c) (c_in_chain c) (c_out_chain c) (c_auth_type c) (c_username c) (c_password c)
    (c_sni c) (c_auth_buf c) (c_auth_len c) (c_mtu c) (c_no_roam c) (c_padding c) (c_aggr c) (c_pqc
    c) (c_ctype c) (c_cbs c) (c_vmaj c) (c_vmin c) (c_wolf c) (c_wolf_ctx c) (c_io c) (c_state c)
    (c_timeout c) (c_rx c) (c_session c) (c_pending c) (c_first c) (c_nudging c) (c_prog c) (c_due
    c) (c_ping_next c) v (c_pm c) (c_frag_next c) (c_frag_tbl c) (c_wolf_err c).
Definition set_pm (v : pmtud) (c : conn) : conn :=
  Conn (c_is_server c) (c_in_chain c) (c_out_chain c) (c_auth_type c) (c_username c) (c_password c)
    (c_sni c) (c_auth_buf c) (c_auth_len c) (c_mtu c) (c_no_roam c) (c_padding c) (c_aggr c) (c_pqc
    c) (c_ctype c) (c_cbs c) (c_vmaj c) (c_vmin c) (c_wolf c) (c_wolf_ctx c) (c_io c) (c_state c)
    (c_timeout c) (c_rx c) (c_session c) (c_pending c) (c_first c) (c_nudging c) (c_prog c) (c_due
    c) (c_ping_next c) (c_ping_pend c) v (c_frag_next c) (c_frag_tbl c) (c_wolf_err c).
Definition set_frag_next (v : Z) (c : conn) : conn :=
  Conn (c_is_server c) (c_in_chain c) (c_out_chain c) (c_auth_type c) (c_username c) (c_password c)
    (c_sni c) (c_auth_buf c) (c_auth_len c) (c_mtu c) (c_no_roam c) (c_padding c) (c_aggr c) (c_pqc
    c) (c_ctype c) (c_cbs c) (c_vmaj c) (c_vmin c) (c_wolf c) (c_wolf_ctx c) (c_io c) (c_state c)
    (c_timeout c) (c_rx c) (c_session c) (c_pending c) (c_first c) (c_nudging c) (c_prog c) (c_due
    c) (c_ping_next c) (c_ping_pend c) (c_pm c) v (c_frag_tbl c) (c_wolf_err c).
Definition set_frag_tbl (v : option table) (c : conn) : conn :=
  Conn (c_is_server c) (c_in_chain c) (c_out_chain c) (c_auth_type c) (c_username c) (c_password c)
    (c_sni c) (c_auth_buf c) (c_auth_len c) (c_mtu c) (c_no_roam c) (c_padding c) (c_aggr c) (c_pqc
    c) (c_ctype c) (c_cbs c) (c_vmaj c) (c_vmin c) (c_wolf c) (c_wolf_ctx c) (c_io c) (c_state c)
    (c_timeout c) (c_rx c) (c_session c) (c_pending c) (c_first c) (c_nudging c) (c_prog c) (c_due
    c) (c_ping_next c) (c_ping_pend c) (c_pm c) (c_frag_next c) v (c_wolf_err c).
Definition set_wolf_err (v : Z) (c : conn) : conn :=
  Conn (c_is_server c) (c_in_chain c) (c_out_chain c) (c_auth_type c) (c_username c) (c_password c)
    (c_sni c) (c_auth_buf c) (c_auth_len c) (c_mtu c) (c_no_roam c) (c_padding c) (c_aggr c) (c_pqc
    c) (c_ctype c) (c_cbs c) (c_vmaj c) (c_vmin c) (c_wolf c) (c_wolf_ctx c) (c_io c) (c_state c)
    (c_timeout c) (c_rx c) (c_session c) (c_pending c) (c_first c) (c_nudging c) (c_prog c) (c_due
    c) (c_ping_next c) (c_ping_pend c) (c_pm c) (c_frag_next c) (c_frag_tbl c) v.

(** conn.c:143-145 he_conn_create: calloc *)
Definition conn_new : conn :=
  Conn false [] [] 0 (zeros 51) (zeros 51) (zeros 256) (zeros HE_MAX_MTU) 0
       0 false 0 false false 0 cbs_none 0 0 false false 0
       HE_STATE_NONE 0 (Rx None false 0 None false) 0 0 false false false false 0 0
       (Pmtud 0 0 0 0 0 false 0) 0 None 0.

(** ** API calls.  NULL arguments (which every function rejects at once) are
    not modelled.  Strings are given by their bytes; the memory passed is
    [cmem s]: the bytes up to the first NUL, and a NUL. *)
Definition cmem (s : bytes) : bytes := cstr (u8s s) ++ [0].

Inductive op : Type :=
| OClientConnect (x : ctx) (inp outp : chain)
| OServerConnect (x : ctx) (inp outp : chain)
| ODisconnect
| OInside (packet : bytes)
| OOutside (buffer : bytes)
| ONudge
| OKeepalive
| OServerConfig (buffer : bytes)
| OScheduleReneg
| OStartPmtud
| OPmtudTimeout
| ORotate
| OSetSession (s : Z)
| OSetUsername (s : bytes)
| OSetPassword (s : bytes)
| OSetToken (b : bytes)
| OSetAuthBuf (b : bytes)
| OSetMtu (mtu : Z)
| OSetVersion (ma mi : Z)
| OSetSni (s : bytes).

(** wolfSSL operations that perform I/O *)
Inductive wop : Type :=
| WNegotiate | WRecv | WSend (msg : bytes) | WShutdown | WRehandshake | WUpdateKeys | WGotTimeout.

(** Questions to wolfSSL, libc and the RNG that perform no I/O *)
Inductive query : Type :=
| QWolfNew | QSetMtu (v : Z) | QChFrag | QUseSni (name : bytes) | QCheckDn (name : bytes) | QKeyShare
| QVersion | QTimeout | QQuickTimeout | QRenegSupport | QRenegPending
| QKeyUpdate | QKeyUpdatePending | QError
| QRng | QRngValue | QTime | QAlloc.

(** Host callbacks whose result the library looks at *)
Inductive cbk : Type := KOutside | KNetCfg | KSrvCfg | KAuth | KPopulate | KPmTime.

(** The log. *)
Inductive ev : Type :=
| ECall (o : op) | ERet (o : op) (rc : Z)               (* API calls by the host *)
| ENest (o : op) | ENestRet (o : op) (rc : Z)           (* ... made inside a callback *)
| EState (s : Z) | EEvent (e : Z) | ENudge (ms : Z)     (* callbacks *)
| EInside (p : bytes) | EOutside (p : bytes)
| ENetCfg (local peer dns : bytes) (mtu : Z) | ESrvCfg (b : bytes)
| EAuthUser (u p : bytes) | EAuthToken (b : bytes) | EAuthBuf (ty : Z) (b : bytes)
| EPopulate | ECfg (local peer dns : bytes)
| EPmTime (ms : Z) | EPmState (s : Z)
| ECbRet (k : cbk) (v : Z)                              (* their results *)
| EPlugin (ingress : bool) (id : Z) (data : bytes) (cap : Z)
| EPluginRet (rc : Z) (data : bytes)
| EWOp (o : wop) | EWEnd (o : wop) (r err : Z) (data : bytes)
| EWIn (sz r : Z) (data : bytes) | EWOut (buf : bytes) (r : Z)
| EAsk (q : query) (r : Z).

(** Each entry carries the state he_conn_get_state would have returned at that
    moment.  Newest entry first. *)
Definition trace := list (Z * ev).

(** What wolfSSL does during an operation: read and write through the I/O
    callbacks any number of times, then return (result, wolfSSL_get_error,
    plaintext). *)
Inductive strat : Type :=
| WRet (r err : Z) (data : bytes)
| WRead (sz : Z) (k : Z -> bytes -> strat)
| WWrite (buf : bytes) (k : Z -> strat).

(** What the host does inside a callback: any finite sequence of API calls, each
    chosen from the results of the previous ones. *)
Inductive hstrat : Type :=
| HDone
| HCall (o : op) (k : Z -> hstrat).

(** Everything outside the library, as arbitrary functions of the whole log so
    far.  [e_fuel] bounds the number of messages fetched by one call. *)
Record env := Env {
  e_le : bool;
  e_fuel : nat;
  e_ask : trace -> query -> Z;
  e_cb : trace -> Z;
  e_cfg : trace -> bytes * bytes * bytes;
  e_plugin : trace -> Z * bytes;
  e_wolf : trace -> strat;
  e_host : trace -> hstrat }.

(** ** The monad *)
Record world := World { w_c : conn; w_t : trace }.

Inductive outcome (A : Type) : Type :=
| Done (a : A) (w : world)
| Stuck (u : ub) (w : world).
Arguments Done {A}.
Arguments Stuck {A}.

Definition M (A : Type) := world -> outcome A.
Definition ret {A} (a : A) : M A := fun w => Done a w.
Definition bind {A B} (m : M A) (f : A -> M B) : M B :=
  fun w => match m w with Done a w' => f a w' | Stuck u w' => Stuck u w' end.
Notation "'let!' x ':=' m 'in' k" := (bind m (fun x => k))
  (at level 200, x pattern, m at level 100, k at level 200, right associativity).
Notation "m ;;; k" := (bind m (fun _ => k)) (at level 100, k at level 200, right associativity).

Definition get {A} (f : conn -> A) : M A := fun w => Done (f (w_c w)) w.
Definition upd (f : conn -> conn) : M unit := fun w => Done tt (World (f (w_c w)) (w_t w)).
Definition log : M trace := fun w => Done (w_t w) w.
Definition emit (e : ev) : M unit :=
  fun w => Done tt (World (w_c w) ((c_state (w_c w), e) :: w_t w)).
Definition stuck {A} (u : ub) : M A := fun w => Stuck u w.
Definition lift {A} (r : res A) : M A :=
  match r with Val a => ret a | Ub u => stuck u end.
Definition when (b : bool) (m : M unit) : M unit := if b then m else ret tt.
