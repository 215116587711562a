(** What is expected of the command lines of miracle-sinkctl and miracle-wifictl. *)
From Coq Require Import String ZArith.
From Verif Require Import Base Text Atoi_Spec Mirror_Model Cli_Model.
Local Open Scope list_scope.

(** ** Usage: name; for use at the prompt only; least and greatest number of arguments *)
Definition usage (pr : program) : list (list byte * bool * N * option N) :=
  match pr with
  | Sink => [(text "list", false, 0, Some 0); (text "show", false, 0, Some 1); (text "run", false, 1, Some 1); (text "bind", false, 1, Some 1);
             (text "set-friendly-name", false, 0, Some 2); (text "set-managed", false, 2, Some 2); (text "quit", true, 0, None); (text "exit", true, 0, None);
             (text "help", false, 0, None)]
  | Wifi => [(text "list", false, 0, Some 0); (text "select", true, 0, Some 1); (text "show", false, 0, Some 1); (text "set-friendly-name", false, 0, Some 2);
             (text "set-managed", false, 0, Some 2); (text "p2p-scan", true, 0, Some 2); (text "connect", false, 0, Some 3);
             (text "disconnect", false, 1, Some 1); (text "quit", true, 0, None); (text "exit", true, 0, None); (text "help", false, 0, None)]
  end.
Definition enough (n least : N) (most : option N) : Prop := least <= n /\ match most with Some m => n <= m | None => True end.
(** [w] can be used here, with so many arguments. *)
Definition usable (pr : program) (prompt : bool) (w : list byte) (least : N) (most : option N) : Prop :=
  exists only, In (w, only, least, most) (usage pr) /\ (only = true -> prompt = true).
Definition complaint (t : list byte) : Prop := In t [text "Invalid number of arguments"; text "too few arguments"; text "too many arguments"].

(** ** Names *)
(** The first of the best; [fit]: lower numbers are better. *)
Definition best {A} (fit : A -> N -> Prop) (xs : list A) (x : A) : Prop :=
  exists before after r, xs = before ++ x :: after /\ fit x r /\ (forall y k, In y xs -> fit y k -> r <= k) /\ (forall y, In y before -> ~ fit y r).
(** Equal but for the case of letters. *)
Definition alike (a b : list byte) : Prop := map lower a = map lower b.
Inductive link_fit (t : list byte) (l : clink) : N -> Prop :=
| Fit_label : alike (cl_label l) t -> link_fit t l 0
| Fit_ifname x : cl_ifname l = Some x -> alike x t -> link_fit t l 1
| Fit_name x : cl_name l = Some x -> alike x t -> link_fit t l 2.
Definition link_named (c : client) (t : list byte) (l : clink) : Prop := t <> [] /\ best (link_fit t) c l.
(** Peers with their places. *)
Definition number (t : list byte) (i : N) : Prop := exists vs, t <> [] /\ Forall2 (digit 10) t vs /\ num 10 vs = i.
Inductive peer_fit (t : list byte) : N * (clink * cpeer) -> N -> Prop :=
| Fit_mac i l p rest : cp_label p = t ++ 64 :: rest -> peer_fit t (i, (l, p)) 0
| Fit_friendly i l p x : cp_name p = Some x -> alike x t -> peer_fit t (i, (l, p)) 1
| Fit_iface i l p x : cp_iface p = Some x -> alike x t -> peer_fit t (i, (l, p)) 2
| Fit_place i l p : number t i -> peer_fit t (i, (l, p)) 3.
Fixpoint places {A} (i : N) (xs : list A) : list (N * A) := match xs with [] => [] | x :: xs => (i, x) :: places (i + 1) xs end.
Definition peer_among (ps : list (clink * cpeer)) (t : list byte) (x : clink * cpeer) : Prop := exists i, best (peer_fit t) (places 0 ps) (i, x).
Definition all_peers (c : client) : list (clink * cpeer) := flat_map (fun l => map (pair l) (cl_peers l)) c.
(** "name@link". *)
Definition at_link (t name rest : list byte) : Prop := t = name ++ 64 :: rest /\ ~ In 64 name.
Definition first_alike {A} (key : A -> list byte) (xs : list A) (t : list byte) (x : A) : Prop :=
  exists before after, xs = before ++ x :: after /\ alike (key x) t /\ forall y, In y before -> ~ alike (key y) t.
Definition exact_peer (c : client) (t : list byte) (x : clink * cpeer) : Prop :=
  exists name rest, at_link t name rest /\ rest <> [] /\ first_alike cl_label c rest (fst x) /\ first_alike cp_label (cl_peers (fst x)) t (snd x).
Definition there_peer (c : client) (t : list byte) (x : clink * cpeer) : Prop :=
  exists name rest l, at_link t name rest /\ link_named c rest l /\ peer_among (map (pair l) (cl_peers l)) name x.
(** By its label; else among those of the link behind the @; else among all. *)
Definition peer_named (c : client) (t : list byte) (x : clink * cpeer) : Prop :=
  t <> [] /\
  (exact_peer c t x
   \/ (forall y, ~ exact_peer c t y) /\ (there_peer c t x \/ (forall y, ~ there_peer c t y) /\ peer_among (all_peers c) t x)).
(** Nothing before the @. *)
Definition bare (t : list byte) : Prop := exists rest, t = 64 :: rest.
(** Fewer peers than 2^32. *)
Definition few (c : client) : Prop := lenN (all_peers c) <= 2 ^ 32.

(** ** What may happen *)
(** Links wifid has told all about, each once; the current one is among them. *)
Definition ok_link (l : clink) : Prop := cl_name l <> None /\ cl_wfd l <> None.
Definition ok (s : st) : Prop :=
  Forall ok_link (links s) /\ NoDup (map (fun l => map lower (cl_label l)) (links s)) /\ (forall t, cur s = Some t -> In t (map cl_label (links s))).
Definition event_ok (e : event) : Prop :=
  match e with
  | Heard (Added (LinkPath label) ps) => label <> [] /\ (exists t, In (Name t) ps) /\ (exists t, In (Wfd t) ps)
  | _ => True
  end.

(** ** What commands mean: what is asked of wifid, and the current link afterwards *)
Definition calls (o : list out) : list call := flat_map (fun x => match x with Ask c => [c] | _ => [] end) o.
Definition current (s : st) (l : clink) : Prop := In l (links s) /\ cur s = Some (cl_label l).
(** Not asked if it is so already. *)
Definition change (already : Prop) (c : call) (cs : list call) : Prop := already /\ cs = [] \/ ~ already /\ cs = [c].
Definition sink_wfd : list byte := text "000600111c4400c8".
Definition truth (v : list byte) (b : bool) : Prop := v = text "yes" /\ b = true \/ v = text "no" /\ b = false.
Definition method (t : list byte) : Prop := In t [text "auto"; text "pbc"; text "display"; text "pin"].
(** [link] [stop], in any order. *)
Inductive scan_usage (s : st) : list (list byte) -> clink -> bool -> Prop :=
| Scan_current l : current s l -> scan_usage s [] l true
| Scan_current_stop l : current s l -> scan_usage s [text "stop"] l false
| Scan_link a l : a <> text "stop" -> link_named (links s) a l -> scan_usage s [a] l true
| Scan_link_stop a l : a <> text "stop" -> link_named (links s) a l -> scan_usage s [a; text "stop"] l false
| Scan_stop_link a l : a <> text "stop" -> link_named (links s) a l -> scan_usage s [text "stop"; a] l false.
Inductive means (s : st) : program -> list (list byte) -> list call -> option (list byte) -> Prop :=
| Mean_name pr t l cs : current s l -> change (cl_name l = Some t) (AskName (cl_label l) t) cs -> means s pr [text "set-friendly-name"; t] cs (cur s)
| Mean_name_of pr a t l cs : link_named (links s) a l -> change (cl_name l = Some t) (AskName (cl_label l) t) cs -> means s pr [text "set-friendly-name"; a; t] cs (cur s)
| Mean_managed v b l cs : current s l -> truth v b -> change (cl_managed l = b) (AskManaged (cl_label l) b) cs -> means s Wifi [text "set-managed"; v] cs (cur s)
| Mean_managed_of pr a v b l cs : link_named (links s) a l -> truth v b -> change (cl_managed l = b) (AskManaged (cl_label l) b) cs ->
    means s pr [text "set-managed"; a; v] cs (cur s)
| Mean_select a l cs : link_named (links s) a l -> change (cl_wfd l = Some sink_wfd) (AskWfd (cl_label l) sink_wfd) cs -> means s Wifi [text "select"; a] cs (Some (cl_label l))
| Mean_deselect : means s Wifi [text "select"] [] None
| Mean_scan args l b cs : scan_usage s args l b -> cl_managed l = true -> change (cl_scan l = b) (AskScan (cl_label l) b) cs -> means s Wifi (text "p2p-scan" :: args) cs (cur s)
| Mean_connect a l p : peer_named (links s) a (l, p) -> cl_managed l = true -> means s Wifi [text "connect"; a] [AskConnect (cp_label p) (text "auto") []] (cur s)
| Mean_connect_by a m l p : peer_named (links s) a (l, p) -> cl_managed l = true -> method m -> means s Wifi [text "connect"; a; m] [AskConnect (cp_label p) m []] (cur s)
| Mean_connect_pin a pin l p : peer_named (links s) a (l, p) -> cl_managed l = true -> ~ method pin -> means s Wifi [text "connect"; a; pin] [AskConnect (cp_label p) (text "auto") pin] (cur s)
| Mean_connect_all a m pin l p : peer_named (links s) a (l, p) -> cl_managed l = true -> method m -> means s Wifi [text "connect"; a; m; pin] [AskConnect (cp_label p) m pin] (cur s)
| Mean_disconnect a l p : peer_named (links s) a (l, p) -> cl_managed l = true -> means s Wifi [text "disconnect"; a] [AskDisconnect (cp_label p)] (cur s)
| Mean_run w a l c1 c2 : w = text "run" \/ w = text "bind" -> cur s = None -> link_named (links s) a l -> cl_managed l = true ->
    change (cl_wfd l = Some sink_wfd) (AskWfd (cl_label l) sink_wfd) c1 -> change (cl_scan l = true) (AskScan (cl_label l) true) c2 ->
    means s Sink [w; a] (c1 ++ c2) (Some (cl_label l)).
(** Arguments the programs accept though they say nothing of them. *)
Definition odd (words : list (list byte)) : Prop :=
  (exists v, (words = [text "set-managed"; v] \/ exists a, words = [text "set-managed"; a; v]) /\ v <> text "yes" /\ v <> text "no")
  \/ (exists a m pin, words = [text "connect"; a; m; pin] /\ ~ method m)
  \/ (exists a b, words = [text "p2p-scan"; a; b] /\ (a = text "stop" <-> b = text "stop"))
  \/ (exists w a args, words = w :: a :: args /\ (w = text "connect" \/ w = text "disconnect") /\ bare a).

(** ** Completion *)
Definition begins (t name : list byte) : Prop := exists rest, name = t ++ rest.
Inductive kept {A} (P : A -> Prop) : list A -> list A -> Prop :=
| Kept_nil : kept P [] []
| Kept_yes x l m : P x -> kept P l m -> kept P (x :: l) (x :: m)
| Kept_no x l m : ~ P x -> kept P l m -> kept P (x :: l) m.
Definition given (o : option (list byte)) : list (list byte) := match o with Some [] => [] | Some t => [t] | None => [] end.
Definition link_words (l : clink) : list (list byte) := cl_label l :: given (cl_name l).
Definition peer_words (x : clink * cpeer) : list (list byte) := cp_label (snd x) :: given (cp_name (snd x)).
Definition offered (pr : program) (c : client) (g : gen) : list (list byte) :=
  match g with
  | YesNo => [text "yes"; text "no"]
  | Commands => map (fun u => fst (fst (fst u))) (usage pr)
  | Links => flat_map link_words c
  | Peers => flat_map peer_words (all_peers c)
  | LinksPeers => flat_map link_words c ++ flat_map peer_words (all_peers c)
  end.
(** What is offered for the argument after [n] words that are complete. *)
Definition wanted (w : list byte) (n : N) : option gen :=
  if str_eq w (text "show") then if n =? 1 then Some LinksPeers else None
  else if str_eq w (text "connect") || str_eq w (text "disconnect") then if n =? 1 then Some Peers else None
  else if str_eq w (text "set-managed") then if n =? 1 then Some Links else if n =? 2 then Some YesNo else None
  else if str_eq w (text "run") || str_eq w (text "bind") || str_eq w (text "select") || str_eq w (text "set-friendly-name") || str_eq w (text "p2p-scan")
  then if n =? 1 then Some Links else None else None.
(** [n] words, each with blanks behind it, and then [last]. *)
Inductive typed : N -> list byte -> Prop :=
| Typed_last t : ~ In 32 t -> typed 0 t
| Typed_blank n t : typed n t -> typed n (32 :: t)
| Typed_word n w t : w <> [] -> ~ In 32 w -> typed n (32 :: t) -> typed (n + 1) (w ++ 32 :: t).
