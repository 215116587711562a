(** Runs that make directories. *)
From Coq Require Import String.
From Verif Require Import Base Text Split_Model Split_Spec Split_Proofs Mkdir_Model Mkdir_Spec Mkdir_Proofs Mkdir_Run Mkdir_Sound.
Local Open Scope list_scope.

(** A file system with /, /run and the file /run/pid. *)
Definition run0 : fs := fun l =>
  if loc_eqb l [] then Some (Dir 493) else if loc_eqb l [text "run"] then Some (Dir 493) else if loc_eqb l [text "pid"; text "run"] then Some File else None.
Definition none : loc -> N := fun _ => 0.
(** The error and what is at some places. *)
Definition shown (r : option (N * fs)) (ls : list loc) : option (N * list (option node)) := match r with Some (e, f) => Some (e, map f ls) | None => None end.
Definition seen : list loc := [[]; [text "run"]; [text "miracle"; text "run"]; [text "wifi"; text "miracle"; text "run"]; [text "pid"; text "run"]].
Lemma run0_sound : sound run0.
Proof.
  intros n l. unfold run0. destruct (loc_eqb (n :: l) []) eqn:E0; [apply loc_eqb_spec in E0; discriminate|]. destruct (loc_eqb (n :: l) [text "run"]) eqn:E1.
  { apply loc_eqb_spec in E1. injection E1 as -> ->. intros _. exists 493. reflexivity. }
  destruct (loc_eqb (n :: l) [text "pid"; text "run"]) eqn:E2; [|intros H; now contradiction H]. apply loc_eqb_spec in E2. injection E2 as -> ->. intros _. exists 493. reflexivity.
Qed.
(** What wifid does when it starts, wifid.c:466-471. *)
Lemma wifid_ex : shown (mkdir_p none [] (Some (text "/run")) 493 run0 (text "/run/miracle")) seen = Some (0, [Some (Dir 493); Some (Dir 493); Some (Dir 493); None; Some File])
  /\ shown (match mkdir_p none [] (Some (text "/run")) 493 run0 (text "/run/miracle") with
            | Some (_, f) => mkdir_p none [] (Some (text "/run/miracle")) 448 f (text "/run/miracle/wifi") | None => None end) seen
     = Some (0, [Some (Dir 493); Some (Dir 493); Some (Dir 493); Some (Dir 448); Some File]).
Proof. vm_compute. auto. Qed.
Lemma dots_ex : shown (mkdir_p none [text "run"] None 448 run0 (text "../run//./miracle/../miracle/wifi/")) seen = Some (0, [Some (Dir 493); Some (Dir 493); Some (Dir 448); Some (Dir 448); Some File]).
Proof. vm_compute. auto. Qed.
Lemma denied_ex : shown (mkdir_p (fun l => if loc_eqb l [text "wifi"; text "miracle"; text "run"] then 13 else 0) [] None 448 run0 (text "/run/miracle/wifi/x")) seen = Some (13, [Some (Dir 493); Some (Dir 493); Some (Dir 448); None; Some File]).
Proof. vm_compute. auto. Qed.
Lemma file_ex : shown (mkdir_p none [] None 448 run0 (text "/run/pid/a/b")) seen = Some (20, map run0 seen) /\ shown (mkdir_p none [] None 448 run0 (text "/run/pid")) seen = Some (17, map run0 seen)
  /\ shown (mkdir_p none [] None 448 run0 (text "/run/pid/")) seen = Some (20, map run0 seen).
Proof. vm_compute. auto. Qed.
Lemma prefix_ex : shown (mkdir_p none [] (Some (text "/run/miracle")) 448 run0 (text "/run/miracle/wifi")) seen = Some (2, map run0 seen)
  /\ shown (mkdir_p none [] (Some (text "/run/miracle")) 448 run0 (text "/run/other")) seen = Some (20, map run0 seen).
Proof. vm_compute. auto. Qed.
(** The prefix itself is made. *)
Lemma prefix_made : exists f path ns l r f', sound f /\ named path ns /\ plain ns /\ mkdir_p none [] (Some path) 448 f path = Some (r, f') /\ f' l <> f l /\ l = rev ns.
Proof.
  exists run0, (text "/run/miracle"), [text "run"; text "miracle"], [text "miracle"; text "run"]. do 2 eexists. split; [apply run0_sound|]. split; [exact (names_named (text "/run/miracle"))|].
  split; [repeat constructor; discriminate|]. split; [reflexivity|]. split; [|reflexivity]. cbv beta. rewrite (proj2 (loc_eqb_spec _ _) eq_refl). discriminate.
Qed.
(** A prefix with ".." in the path does not hold anything back. *)
Lemma dots_leave : exists f path ns l r f', sound f /\ named path ns /\ inside (Some (text "/run")) path ns /\ mkdir_p none [] (Some (text "/run")) 448 f path = Some (r, f') /\ f' l <> f l /\ l = [text "etc"].
Proof.
  exists run0, (text "/run/../etc"), (names (text "/run/../etc")), [text "etc"]. do 2 eexists. split; [apply run0_sound|]. split; [apply names_named|]. split.
  { split; [split; intros _; eexists; reflexivity|]. exists [text "run"], [text ".."; text "etc"]. split; [exact (names_named (text "/run"))|reflexivity]. }
  split; [reflexivity|]. split; [|reflexivity]. cbv beta. rewrite (proj2 (loc_eqb_spec _ _) eq_refl). discriminate.
Qed.
Lemma strcat_ex : strcat (Some (text "NEXT-")) (Some (text "aa:bb")) = Ok (Some (text "NEXT-aa:bb" ++ [0])) /\ strcat None (Some (text "x")) = Ok (Some [120; 0]) /\ strcat None None = Ok (Some [0]).
Proof. vm_compute. auto. Qed.
Lemma strjoin_ex : strjoin [text "ssid"; text "="; text "DIRECT-xy"] = Ok (Some (text "ssid=DIRECT-xy" ++ [0])) /\ strjoin [] = Ok (Some [0]).
Proof. vm_compute. auto. Qed.
