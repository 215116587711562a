(** Properties C162 .. C166: making directories, joining strings. *)
From Coq Require Import String.
From Verif Require Import Base Text Split_Model Split_Spec Mkdir_Model Mkdir_Spec Mkdir_Proofs Mkdir_Run Mkdir_Sound Mkdir_Cex.
Local Open Scope list_scope.

(** C162. If shl_mkdir_p succeeds the path is that of a directory; in any case nothing
    is lost or changed and what is new is a directory with the mode. *)
Theorem C162_ends : forall deny cwd prefix mode f path, exists r f', mkdir_p deny cwd prefix mode f path = Some (r, f').
Proof. exact total. Qed.
Print Assumptions C162_ends.
Theorem C162_makes : forall deny cwd prefix mode f path f', mkdir_p deny cwd prefix mode f path = Some (0, f') -> directory f' cwd path.
Proof. exact makes. Qed.
Print Assumptions C162_makes.
Theorem C162_keeps : forall deny cwd prefix mode f path r f', mkdir_p deny cwd prefix mode f path = Some (r, f') -> grows mode f f'.
Proof. exact only_grows. Qed.
Print Assumptions C162_keeps.
Example C162_ex : shown (mkdir_p none [text "run"] None 448 run0 (text "../run//./miracle/../miracle/wifi/")) seen = Some (0, [Some (Dir 493); Some (Dir 493); Some (Dir 448); Some (Dir 448); Some File]).
Proof. exact dots_ex. Qed.

(** C163. It succeeds if nothing is in the way, and else says why: a file leaves all as
    it was, a refused directory is the error. *)
Theorem C163_complete : forall deny cwd prefix mode f path ns b, sound f -> named path ns -> begins_at cwd path b -> plain ns -> path <> [] -> is_dir f b ->
  (forall l, on_way b ns l -> f l <> Some File) -> inside prefix path ns -> stands f b prefix -> (forall l, deny l <> EEXIST) ->
  exists r f', mkdir_p deny cwd prefix mode f path = Some (r, f') /\ (r = 0 \/ exists l, on_way b ns l /\ r = deny l /\ f' l = None).
Proof. exact complete. Qed.
Print Assumptions C163_complete.
Theorem C163_blocked : forall deny cwd prefix mode f path r f' ns b l, sound f -> named path ns -> begins_at cwd path b -> plain ns -> on_way b ns l -> f l = Some File -> path <> [] ->
  mkdir_p deny cwd prefix mode f path = Some (r, f') -> f' = f /\ (r = ENOTDIR \/ r = EEXIST).
Proof. exact blocked. Qed.
Print Assumptions C163_blocked.
Example C163_ex : sound run0 /\ shown (mkdir_p (fun l => if loc_eqb l [text "wifi"; text "miracle"; text "run"] then 13 else 0) [] None 448 run0 (text "/run/miracle/wifi/x")) seen = Some (13, [Some (Dir 493); Some (Dir 493); Some (Dir 448); None; Some File])
  /\ shown (mkdir_p none [] None 448 run0 (text "/run/pid/a/b")) seen = Some (20, map run0 seen) /\ shown (mkdir_p none [] None 448 run0 (text "/run/pid")) seen = Some (17, map run0 seen)
  /\ shown (mkdir_p none [] None 448 run0 (text "/run/pid/")) seen = Some (20, map run0 seen).
Proof. exact (conj run0_sound (conj denied_ex file_ex)). Qed.

(** C164. With a prefix only directories below it are made: but ".." leads out of it, and
    the prefix itself is made if it is the path. *)
Theorem C164_leaves_refuted : exists f path ns l r f', sound f /\ named path ns /\ inside (Some (text "/run")) path ns /\ mkdir_p none [] (Some (text "/run")) 448 f path = Some (r, f') /\ f' l <> f l /\ l = [text "etc"].
Proof. exact dots_leave. Qed.
Print Assumptions C164_leaves_refuted.
Theorem C164_itself_refuted : exists f path ns l r f', sound f /\ named path ns /\ plain ns /\ mkdir_p none [] (Some path) 448 f path = Some (r, f') /\ f' l <> f l /\ l = rev ns.
Proof. exact prefix_made. Qed.
Print Assumptions C164_itself_refuted.
Theorem C164_below_partial : forall deny cwd prefix mode f path r f' ns b l, named path ns -> begins_at cwd path b -> plain ns -> mkdir_p deny cwd prefix mode f path = Some (r, f') -> f' l <> f l ->
  inside prefix path ns /\ exists ms rest, ns = ms ++ rest /\ ms <> [] /\ l = rev ms ++ b /\ (rest = [] \/ below prefix ms).
Proof. exact places. Qed.
Print Assumptions C164_below_partial.
Theorem C164_outside_partial : forall deny cwd prefix mode f path ns, named path ns -> ~ inside prefix path ns -> mkdir_p deny cwd prefix mode f path = Some (ENOTDIR, f).
Proof. exact outside_named. Qed.
Print Assumptions C164_outside_partial.
Theorem C164_missing_partial : forall deny cwd prefix mode f path q qs x xs b, prefix = Some q -> sound f -> named q qs -> named path (qs ++ x :: xs) -> begins_at cwd path b -> plain (qs ++ x :: xs) -> (rooted q <-> rooted path) ->
  is_dir f b -> (forall l, on_way b qs l -> f l <> Some File) -> f (rev qs ++ b) = None -> mkdir_p deny cwd prefix mode f path = Some (ENOENT, f).
Proof. exact no_prefix. Qed.
Print Assumptions C164_missing_partial.
Example C164_ex : shown (mkdir_p none [] (Some (text "/run/miracle")) 448 run0 (text "/run/miracle/wifi")) seen = Some (2, map run0 seen)
  /\ shown (mkdir_p none [] (Some (text "/run/miracle")) 448 run0 (text "/run/other")) seen = Some (20, map run0 seen).
Proof. exact prefix_ex. Qed.
Example C164_wifid_ex : shown (mkdir_p none [] (Some (text "/run")) 493 run0 (text "/run/miracle")) seen = Some (0, [Some (Dir 493); Some (Dir 493); Some (Dir 493); None; Some File])
  /\ shown (match mkdir_p none [] (Some (text "/run")) 493 run0 (text "/run/miracle") with
            | Some (_, f) => mkdir_p none [] (Some (text "/run/miracle")) 448 f (text "/run/miracle/wifi") | None => None end) seen
     = Some (0, [Some (Dir 493); Some (Dir 493); Some (Dir 493); Some (Dir 448); Some File]).
Proof. exact wifid_ex. Qed.

(** C165. shl_strcat gives both texts, or nothing if they do not fit a block. *)
Theorem C165_strcat : forall first second, lenN (or_empty first) < 2 ^ 64 -> lenN (or_empty second) < 2 ^ 64 ->
  strcat first second = Ok (if lenN (or_empty first) + lenN (or_empty second) + 1 <? 2 ^ 64 then Some (or_empty first ++ or_empty second ++ [0]) else None).
Proof. exact strcat_exact. Qed.
Print Assumptions C165_strcat.
Example C165_ex : strcat (Some (text "NEXT-")) (Some (text "aa:bb")) = Ok (Some (text "NEXT-aa:bb" ++ [0])) /\ strcat None (Some (text "x")) = Ok (Some [120; 0]) /\ strcat None None = Ok (Some [0]).
Proof. exact strcat_ex. Qed.

(** C166. So does shl_strjoin for any number of texts: but the end is not counted
    in the check. *)
Theorem C166_full_refuted : exists args, Forall (fun a => lenN a < 2 ^ 64) args /\ strjoin args = UB.
Proof. exact strjoin_wraps. Qed.
Print Assumptions C166_full_refuted.
Theorem C166_strjoin_partial : forall args, Forall (fun a => lenN a < 2 ^ 64) args -> lenN (concat args) + 1 <> 2 ^ 64 ->
  strjoin args = Ok (if lenN (concat args) + 1 <? 2 ^ 64 then Some (concat args ++ [0]) else None).
Proof. exact strjoin_exact. Qed.
Print Assumptions C166_strjoin_partial.
Example C166_ex : strjoin [text "ssid"; text "="; text "DIRECT-xy"] = Ok (Some (text "ssid=DIRECT-xy" ++ [0])) /\ strjoin [] = Ok (Some [0]).
Proof. exact strjoin_ex. Qed.
