(** Vocabulary for C51: what a history of calls has set. *)
From Verif Require Import Base Codes Ctx CredSpec Settings.

(** The value chosen last: [f] tells which value a call chooses, if any. *)
Fixpoint last_choice A (f : sop -> option A) (l : list sop) (d : A) : A :=
  match l with [] => d | o :: l => last_choice f l (match f o with Some v => v | None => d end) end.

Inductive callback_kind : Type := CState | CNudge | CInside | COutside | CNetcfg | CSrvcfg | CEvent | CAuth | CAuthtok | CAuthbuf | CPopulate | CPmtime | CPmstate.
(** The callback a call registers. *)
Definition registers (k : callback_kind) (o : sop) : option Z :=
  match k, o with
  | CState, SState p | CNudge, SNudge p | CInside, SInside p | COutside, SOutside p | CNetcfg, SNetcfg p | CSrvcfg, SSrvcfg p | CEvent, SEvent p | CAuth, SAuth p | CAuthtok, SAuthtok p | CAuthbuf, SAuthbuf p | CPopulate, SPopulate p | CPmtime, SPmtime p | CPmstate, SPmstate p => Some p
  | _, _ => None
  end.
Definition pointer (k : callback_kind) (p : ptrs) : Z :=
  match k with
  | CState => p_state p | CNudge => p_nudge p | CInside => p_inside p | COutside => p_outside p | CNetcfg => p_netcfg p | CSrvcfg => p_srvcfg p | CEvent => p_event p | CAuth => p_auth p | CAuthtok => p_authtok p | CAuthbuf => p_authbuf p | CPopulate => p_populate p | CPmtime => p_pmtime p | CPmstate => p_pmstate p
  end.
(** What calls are accepted, and with what effect. *)
Definition chooses_dn (o : sop) : option bytes :=
  match o with SDn (Some s) => if (1 <=? len (text s)) && (len (text s) <=? 50) then Some (firstn 49 (text s)) else None | _ => None end.
Definition chooses_ca (o : sop) : option (Z * Z) := match o with SCa p n => if (p =? 0) || (n =? 0) then None else Some (p, n) | _ => None end.
Definition chooses_cert (o : sop) : option (Z * Z) := match o with SCert p q => if (p =? 0) || (q =? 0) then None else Some (p, q) | _ => None end.
Definition chooses_type (o : sop) : option Z := match o with SType t => if (t =? 0) || (t =? 1) then Some t else None | _ => None end.
Definition chooses_chacha (o : sop) : option bool := match o with SChacha b => Some b | _ => None end.
Definition chooses_roam (o : sop) : option bool := match o with SNoRoam => Some true | _ => None end.
Definition chooses_padding (o : sop) : option Z := match o with SPadding v => Some v | _ => None end.
Definition chooses_aggr (o : sop) : option bool := match o with SAggr => Some true | _ => None end.
Definition chooses_pqc (o : sop) : option bool := match o with SPqc b => Some b | _ => None end.
Definition chooses_frag (o : sop) : option Z := match o with SFrag n => Some (Z.min n 65536) | _ => None end.

(** The calls on context [i]. *)
Definition on (i : Z) (h : list hop) : list sop := flat_map (fun o => match o with HCtx j o => if j =? i then [o] else [] | _ => [] end) h.
Definition is_connect (o : hop) : bool := match o with HConnect _ => true | _ => false end.
Definition is_disconnect (o : hop) : bool := match o with HDisconnect => true | _ => false end.
Definition attached (h : list hop) : Z := fold_left (fun d o => match o with HData p => if p =? 0 then d else p | _ => d end) h 0.
