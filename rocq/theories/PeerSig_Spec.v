(** What is expected of the signals of peers. *)
From Coq Require Import String.
From Verif Require Import Base Text Mirror_Model Mirror_Spec PeerSig_Model.
Local Open Scope list_scope.

(** What wifid wants to tell of a peer. *)
Inductive news := Asks (type pin : option (list byte)) | Wants (type pin : option (list byte)) | Fails (reason : list byte).
Definition send (i : N) (p : dpeer) (n : news) : list msg :=
  match n with Asks t pin => provision_discovery i p t pin | Wants t pin => go_neg_request i p t pin | Fails r => formation_failure i p r end.
(** There is something to tell: the callback, and the texts that it should get. A PIN that
    is not there is empty. *)
Inductive means : news -> kind -> list (list byte) -> Prop :=
| means_asks t pin : means (Asks (Some t) (Some pin)) Prov [t; pin]
| means_asks_pbc t : means (Asks (Some t) None) Prov [t; []]
| means_wants t pin : means (Wants (Some t) (Some pin)) GoNeg [t; pin]
| means_wants_pbc t : means (Wants (Some t) None) GoNeg [t; []]
| means_fails r : means (Fails r) Fail [r].
(** The peer that the program has for an address on a link. *)
Definition known_as (c : client) (i : N) (mac : list byte) (q : cpeer) : Prop :=
  exists l, find_link c (link_label i) = Some l /\ cl_index l = i /\ In q (cl_peers l) /\ cp_mac q = Some mac.
(** A program that asked for all objects after [os1] and heard all signals of [os2]. *)
Definition follower (os1 os2 : list op) (c : client) : Prop :=
  exists c0, fetch [] (objects (daemon_after os1)) = Some c0 /\ c = fst (hear_all c0 (snd (run (daemon_after os1) os2))).
(** Texts that are joined by words of the program. *)
Fixpoint joined (ws : list (list byte)) : list byte := match ws with [] => [] | w :: ws => w ++ joined ws end.
Inductive printed : kind -> list byte -> list (list byte) -> list byte -> Prop :=
| printed_prov label t pin : printed Prov label [t; pin]
    (joined [91 :: 27 :: text "[0;93mPROV"; 27 :: text "[0m] Peer: "; label; text " Type: "; t; text " PIN: "; pin; [10]])
| printed_go label t pin : printed GoNeg label [t; pin]
    (joined [91 :: 27 :: text "[0;93mGO NEG"; 27 :: text "[0m] Peer: "; label; text " Type: "; t; text " PIN: "; pin; [10]])
| printed_fail label r : printed Fail label [r]
    (joined [91 :: 27 :: text "[0;93mFAIL"; 27 :: text "[0m] Peer: "; label; text " Reason: "; r; [10]]).
