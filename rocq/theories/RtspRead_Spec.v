(** What is expected of reading a message. *)
From Verif Require Import Base Text RtspMsg_Model RtspMsg_Spec.
Local Open Scope list_scope.

(** Where a reader stands: in the body or not; in a header, with the tokens not yet read. *)
Record place := mkPlace { in_body : bool; in_header : option (header * list (list byte)) }.
Definition top : place := mkPlace false None.
(** The first header of that name, whatever the case of its letters. *)
Definition first_named (l : list header) (name : list byte) (h : header) : Prop :=
  exists y z, l = y ++ h :: z /\ case_eq (h_key h) name = true /\ forall x, In x y -> case_eq (h_key x) name = false.
(** Values of the types in a message with these headers in front and in the body. *)
Inductive reads1 (hs bs : list header) : place -> rop -> list byte -> place -> Prop :=
| reads_enter (b : bool) (name : list byte) h : name <> [] -> first_named (if b then bs else hs) name h ->
    reads1 hs bs (mkPlace b None) (REnter name) [] (mkPlace b (Some (h, h_tokens h)))
| reads_exit b o : reads1 hs bs (mkPlace b o) RExit [] (mkPlace b None)
| reads_body : reads1 hs bs top RBody [] (mkPlace true None)
| reads_body_end o : reads1 hs bs (mkPlace true o) RBodyEnd [] top
| reads_no_body o : reads1 hs bs (mkPlace false o) RBodyEnd [] (mkPlace false o)
| reads_raw b h ts : reads1 hs bs (mkPlace b (Some (h, ts))) RRaw (match h_value h with Some v => v | None => [] end) (mkPlace b (Some (h, ts)))
| reads_string b h t ts : reads1 hs bs (mkPlace b (Some (h, t :: ts))) RString t (mkPlace b (Some (h, ts)))
| reads_skip b h t ts : reads1 hs bs (mkPlace b (Some (h, t :: ts))) RSkip [] (mkPlace b (Some (h, ts)))
| reads_number b h t ts (f : list byte -> option (list byte)) v : f t = Some v -> reads1 hs bs (mkPlace b (Some (h, t :: ts))) (RNumber f) v (mkPlace b (Some (h, ts))).
Inductive reads (hs bs : list header) : place -> list rop -> list (list byte) -> place -> Prop :=
| reads_nil p : reads hs bs p [] [] p
| reads_cons p o v q ops vs r : reads1 hs bs p o v q -> reads hs bs q ops vs r -> reads hs bs p (o :: ops) (v :: vs) r.
(** A sealed message whose reader stands there. *)
Definition stands (m : message) (p : place) : Prop :=
  m_sealed m = true /\ is_data m = false /\ m_iter_body m = in_body p
  /\ match m_iter_header m, in_header p with
     | None, None => True
     | Some x, Some (h, ts) => deref m x = Ok h /\ ts = dropN (m_iter_token m) (h_tokens h)
     | _, _ => False
     end.
Definition front (m : message) : list header := a_used (m_headers m).
Definition behind (m : message) : list header := a_used (m_body_headers m).
Definition enters (o : rop) : bool := match o with REnter _ => true | _ => false end.
