(* What the methods of the default host do, by their identifiers: [MS-PSRP] 2.2.3.17
   and the documentation in src/pypsrp/host.py.  Apart from the methods. *)
From Verif Require Import Base Lit ShellModel HostModel.
Local Open Scope Z_scope.

(* calls that ask for a setting, and the setting *)
Definition asked_for : list (Z * (hstate -> pyval)) :=
  [(1, hs_name); (3, hs_instance); (4, hs_culture); (5, hs_ui_culture);
   (27, hs_fore); (29, hs_back); (31, hs_cursor); (33, hs_window); (35, hs_cursor_size); (37, hs_buffer_size); (39, hs_window_size);
   (41, hs_title); (43, hs_max_window); (44, hs_max_physical); (45, hs_key)].
(* calls that change a setting, and the call that asks for it *)
Definition changed_by : list (Z * Z) := [(28, 27); (30, 29); (32, 31); (34, 33); (36, 35); (38, 37); (40, 39); (42, 41)].
(* calls that the user would have to answer, with their numbers of arguments: they
   are for subclasses *)
Definition for_the_user : list (Z * nat) :=
  [(7, 0%nat); (8, 0%nat); (11, 0%nat); (12, 0%nat); (23, 3%nat); (24, 4%nat); (25, 6%nat); (26, 4%nat); (46, 0%nat); (46, 1%nat); (50, 1%nat)].
(* calls that have no effect, with their numbers of arguments *)
Definition without_effect : list (Z * nat) :=
  [(9, 0%nat); (10, 0%nat); (20, 2%nat); (47, 0%nat); (48, 2%nat); (49, 2%nat); (51, 4%nat)].
(* calls that write, and to what *)
Definition to_stdout : list Z := [13; 14; 15; 16; 17; 19; 21; 22].
Definition to_stderr : list Z := [18].
