(** What is expected of paths. *)
From Verif Require Import Base Text Atoi_Spec Comm_Model Comm_Spec Cli_Spec Paths_Model.
Local Open Scope list_scope.

Definition is_address (t : list byte) : Prop := exists m, is_mac m /\ t = canon m.
(** Addresses are canonical, as wifid makes them; nothing is there twice; the counters count. *)
Record good_link (l : wlink) : Prop := {
  gl_index : 0 < wl_index l < 2 ^ 32;
  gl_once : NoDup (map wp_mac (wl_peers l));
  gl_mac : Forall (fun p => is_address (wp_mac p)) (wl_peers l);
  gl_cnt : wl_cnt l = lenN (wl_peers l) }.
Record good (m : manager) : Prop := {
  go_links : Forall good_link (m_links m);
  go_once : NoDup (map wl_index (m_links m));
  go_cnt : m_cnt m = lenN (m_links m) }.
(** The labels of links and peers. *)
Definition link_text (l : wlink) : list byte := dec (wl_index l).
Definition peer_text (l : wlink) (p : wpeer) : list byte := wp_mac p ++ [64] ++ dec (wl_index l).
Definition shown_link (m : manager) (l : wlink) : Prop := In l (m_links m) /\ wl_public l = true.
Definition shown_peer (m : manager) (l : wlink) (p : wpeer) : Prop := shown_link m l /\ In p (wl_peers l) /\ wp_public p = true.
(** All paths there are. *)
Inductive path_of (m : manager) : node -> Prop :=
| POLink l : shown_link m l -> path_of m (LinkNode (link_text l))
| POPeer l p : shown_peer m l p -> path_of m (PeerNode (peer_text l p))
| PORoot : path_of m Root.
(** Everything can be made. *)
Definition lucky : luck := mkLuck true (fun _ => true) true.
