(** The Wi-Fi Display resolution tables (by bit number) and the choice. *)
From Verif Require Import Base.

Definition cea : list (N * N) :=
  [(640, 480); (720, 480); (720, 480); (720, 576); (720, 576); (1280, 720); (1280, 720);
   (1920, 1080); (1920, 1080); (1920, 1080); (1280, 720); (1280, 720); (1920, 1080);
   (1920, 1080); (1920, 1080); (1280, 720); (1920, 1080)].
Definition vesa : list (N * N) :=
  [(800, 600); (800, 600); (1024, 768); (1024, 768); (1152, 854); (1152, 854); (1280, 768);
   (1280, 768); (1280, 800); (1280, 800); (1360, 768); (1360, 768); (1366, 768); (1366, 768);
   (1280, 1024); (1280, 1024); (1440, 1050); (1440, 1050); (1440, 900); (1440, 900);
   (1600, 900); (1600, 900); (1600, 1200); (1600, 1200); (1680, 1024); (1680, 1024);
   (1680, 1050); (1680, 1050); (1920, 1200)].
Definition hh : list (N * N) :=
  [(800, 480); (800, 480); (854, 480); (854, 480); (864, 480); (864, 480); (640, 360);
   (640, 360); (960, 540); (960, 540); (848, 480); (848, 480)].

(** [r] is the entry of the lowest set bit of [mask] that has an entry. *)
Definition lowest (t : list (N * N)) (mask : N) (r : N * N) : Prop :=
  exists i, N.testbit mask i = true /\ nthN t i = Some r /\ forall j, j < i -> N.testbit mask j = false.
Definition nothing (t : list (N * N)) (mask : N) : Prop :=
  forall j, j < lenN t -> N.testbit mask j = false.

Inductive choice (mc mv mh : N) : option (N * N) -> Prop :=
| ChCea r : lowest cea mc r -> choice mc mv mh (Some r)
| ChVesa r : nothing cea mc -> lowest vesa mv r -> choice mc mv mh (Some r)
| ChHh r : nothing cea mc -> nothing vesa mv -> lowest hh mh r -> choice mc mv mh (Some r)
| ChNone : nothing cea mc -> nothing vesa mv -> nothing hh mh -> choice mc mv mh None.
