(** Model of the video format selection, src/ctl/wfd.c:32-104,171-220 and
    src/ctl/ctl-sink.c:214-233. Entries: index, hres, vres (the refresh rate is
    only printed). The terminating zero entry is the end of the list. *)
From Verif Require Import Base.

Definition entry : Type := N * N * N.
(** resolutions_cea, src/ctl/wfd.c:36-55. *)
Definition resolutions_cea : list entry :=
  [(0, 640, 480); (1, 720, 480); (2, 720, 480); (3, 720, 576); (4, 720, 576); (5, 1280, 720);
   (6, 1280, 720); (7, 1920, 1080); (8, 1920, 1080); (9, 1920, 1080); (10, 1280, 720);
   (11, 1280, 720); (12, 1920, 1080); (13, 1920, 1080); (14, 1920, 1080); (15, 1280, 720);
   (16, 1920, 1080)].
(** resolutions_vesa, src/ctl/wfd.c:57-88. *)
Definition resolutions_vesa : list entry :=
  [(0, 800, 600); (1, 800, 600); (2, 1024, 768); (3, 1024, 768); (4, 1152, 854); (5, 1152, 854);
   (6, 1280, 768); (7, 1280, 768); (8, 1280, 800); (9, 1280, 800); (10, 1360, 768); (11, 1360, 768);
   (12, 1366, 768); (13, 1366, 768); (14, 1280, 1024); (15, 1280, 1024); (16, 1440, 1050);
   (17, 1440, 1050); (18, 1440, 900); (19, 1440, 900); (20, 1600, 900); (21, 1600, 900);
   (22, 1600, 1200); (23, 1600, 1200); (24, 1680, 1024); (25, 1680, 1024); (26, 1680, 1050);
   (27, 1680, 1050); (28, 1920, 1200)].
(** resolutions_hh, src/ctl/wfd.c:90-104. *)
Definition resolutions_hh : list entry :=
  [(0, 800, 480); (1, 800, 480); (2, 854, 480); (3, 854, 480); (4, 864, 480); (5, 864, 480);
   (6, 640, 360); (7, 640, 360); (8, 960, 540); (9, 960, 540); (10, 848, 480); (11, 848, 480)].

(** vfd_get_cea_resolution and its two copies, src/ctl/wfd.c:171-220; [None] is
    -EINVAL. *)
Fixpoint scan (t : list entry) (mask : N) : option (N * N) :=
  match t with
  | [] => None
  | (i, h, v) :: t =>
      if h =? 0 then None
      else if negb (N.land (N.shiftl 1 i) mask =? 0) then Some (h, v) else scan t mask
  end.
Definition get_resolution (t : list entry) (mask : N) : option (N * N) :=
  if mask =? 0 then None else scan t mask.

(** sink_set_format, src/ctl/ctl-sink.c:214-233: the new resolution, or -EINVAL. *)
Definition set_format (cea vesa hh : N) : option (N * N) :=
  match (match get_resolution resolutions_cea cea with
         | Some r => Some r
         | None =>
             match get_resolution resolutions_vesa vesa with
             | Some r => Some r
             | None => get_resolution resolutions_hh hh
             end
         end) with
  | Some (h, v) => if (h =? 0) || (v =? 0) then None else Some (h, v)
  | None => None
  end.

(** vfd_generate_resolution_mask, src/ctl/wfd.c:133-136: 1 is an int, so shifts
    into or beyond the sign bit are undefined. *)
Definition resolution_mask (index : N) : res N :=
  let s := (index + 1) mod 2 ^ 32 in
  if s <? 31 then Ok (N.shiftl 1 s - 1) else UB.
