(** Vocabulary for C55: the answers of the host during a login. *)
From Verif Require Import Base Codes Ctx ConnState ConnSpec.

(** What the authentication callbacks of a server's host returned (0 denies), and
    what the callback that applies a configuration on a client returned. *)
Definition verdicts (_ : Z) (e : ev) : list Z := match e with ECbRet KAuth v => [v] | _ => [] end.
Definition applied (_ : Z) (e : ev) : list Z := match e with ECbRet KNetCfg v => [v] | _ => [] end.
