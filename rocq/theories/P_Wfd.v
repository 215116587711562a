(** Property C40: choosing the sink's video format. *)
From Verif Require Import Base Wfd_Model Wfd_Spec Wfd_Proofs.

(** C40. For every triple of masks the lowest known entry of the first table (in
    the order CEA, VESA, handheld) that has one is chosen; otherwise none. *)
Theorem C40_format_choice : forall mc mv mh, choice mc mv mh (set_format mc mv mh).
Proof. exact set_format_ok. Qed.
Print Assumptions C40_format_choice.

Theorem C40_choice_unique : forall mc mv mh r r',
  choice mc mv mh r -> choice mc mv mh r' -> r = r'.
Proof. exact choice_unique. Qed.
Print Assumptions C40_choice_unique.

(** C55. The generated mask covers the entries up to the index (index below 30;
    from 30 on the shift is undefined, see the example). *)
Theorem C55_resolution_mask : forall i, i < 30 -> resolution_mask i = Ok (N.ones (i + 1)).
Proof. exact resolution_mask_ok. Qed.
Print Assumptions C55_resolution_mask.

Example C40_nontrivial :
  set_format 0x180 0x1 0x1 = Some (1920, 1080) /\ set_format 0xfffe0000 0x30000000 0x40 = Some (1920, 1200)
  /\ set_format 0x20000 0x20000000 0xc0 = Some (640, 360) /\ set_format 0 0 0xfffff000 = None.
Proof. vm_compute. repeat split. Qed.
Example C55_nontrivial : resolution_mask 16 = Ok 0x1ffff /\ resolution_mask 30 = UB.
Proof. vm_compute. split; reflexivity. Qed.
