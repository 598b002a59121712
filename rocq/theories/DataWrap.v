(** * WRAP kinematic data (generated from openap/data/wrap by a script; do not edit) *)
From Coq Require Import String List QArith.
From Verif Require Import PropPy.
Import ListNotations.
Open Scope string_scope.
Open Scope Q_scope.

(** openap/data/wrap/*.txt, columns variable, opt, min, max *)
Definition shipped_wrap : list wrrec := [
  mkWr "a319" [
    ("to_v_lof", (82.7, 72.5, 92.9));
    ("to_d_tof", (1.51, 1.06, 2.41));
    ("to_acc_tof", (1.84, 1.38, 2.29));
    ("ic_va_avg", (80, 73, 87));
    ("ic_vs_avg", (12.27, 9.52, 15.04));
    ("cl_d_range", (206, 157, 348));
    ("cl_v_cas_const", (149, 140, 159));
    ("cl_v_mach_const", (0.77, 0.74, 0.8));
    ("cl_h_cas_const", (3.2, 2.1, 6));
    ("cl_h_mach_const", (8.9, 8, 9.8));
    ("cl_vs_avg_pre_cas", (11.1, 8.41, 13.8));
    ("cl_vs_avg_cas_const", (10.15, 7.63, 12.67));
    ("cl_vs_avg_mach_const", (6.07, 3.99, 8.16));
    ("cr_d_range", (299, 182, 4019));
    ("cr_v_cas_mean", (125, 119, 139));
    ("cr_v_cas_max", (128, 121, 148));
    ("cr_v_mach_mean", (0.77, 0.74, 0.8));
    ("cr_v_mach_max", (0.79, 0.75, 0.82));
    ("cr_h_init", (11.54, 10.27, 11.97));
    ("cr_h_mean", (11.54, 10.21, 11.97));
    ("cr_h_max", (11.64, 10.3, 12.03));
    ("de_d_range", (233, 176, 473));
    ("de_v_mach_const", (0.76, 0.72, 0.8));
    ("de_v_cas_const", (145, 136, 164));
    ("de_h_mach_const", (9.2, 7.7, 10.7));
    ("de_h_cas_const", (5.3, 2.6, 8.1));
    ("de_vs_avg_mach_const", ((-5.87), (-12.13), (-2.41)));
    ("de_vs_avg_cas_const", ((-9.84), (-14.22), (-5.45)));
    ("de_vs_avg_after_cas", ((-5.88), (-7.69), (-4.07)));
    ("fa_va_avg", (67, 63, 76));
    ("fa_vs_avg", ((-3.42), (-4.19), (-2.65)));
    ("fa_agl", (3.15, 2.25, 4.05));
    ("ld_v_app", (66.2, 61, 71.5));
    ("ld_d_brk", (1.38, 0.71, 4.18));
    ("ld_acc_brk", ((-0.87), (-1.79), (-0.35)))];
  mkWr "a320" [
    ("to_v_lof", (85.3, 74.5, 96));
    ("to_d_tof", (1.65, 1.06, 2.24));
    ("to_acc_tof", (1.93, 1.5, 2.37));
    ("ic_va_avg", (83, 76, 89));
    ("ic_vs_avg", (12.59, 9.15, 16.04));
    ("cl_d_range", (257, 141, 374));
    ("cl_v_cas_const", (151, 140, 161));
    ("cl_v_mach_const", (0.78, 0.73, 0.8));
    ("cl_h_cas_const", (3.7, 1.9, 5.4));
    ("cl_h_mach_const", (8.8, 7.9, 9.8));
    ("cl_vs_avg_pre_cas", (10.25, 7.63, 12.87));
    ("cl_vs_avg_cas_const", (8.43, 6.28, 10.6));
    ("cl_vs_avg_mach_const", (5.28, 3.6, 6.97));
    ("cr_d_range", (856, 487, 4352));
    ("cr_v_cas_mean", (133, 124, 143));
    ("cr_v_cas_max", (135, 128, 154));
    ("cr_v_mach_mean", (0.78, 0.75, 0.8));
    ("cr_v_mach_max", (0.8, 0.77, 0.83));
    ("cr_h_init", (10.82, 9.79, 11.85));
    ("cr_h_mean", (10.92, 10, 11.84));
    ("cr_h_max", (11.06, 10.2, 11.92));
    ("de_d_range", (234, 180, 457));
    ("de_v_mach_const", (0.77, 0.73, 0.81));
    ("de_v_cas_const", (144, 135, 163));
    ("de_h_mach_const", (9.6, 7.9, 10.7));
    ("de_h_cas_const", (5.7, 3, 8.5));
    ("de_vs_avg_mach_const", ((-5.76), (-13.45), (-2.26)));
    ("de_vs_avg_cas_const", ((-10.03), (-14.68), (-5.35)));
    ("de_vs_avg_after_cas", ((-6.08), (-7.88), (-4.27)));
    ("fa_va_avg", (72, 67, 77));
    ("fa_vs_avg", ((-3.55), (-4.18), (-2.91)));
    ("fa_agl", (3.06, 2.4, 3.73));
    ("ld_v_app", (69.4, 62.7, 76));
    ("ld_d_brk", (1.08, 0.63, 3.21));
    ("ld_acc_brk", ((-1.22), (-1.97), (-0.47)))];
  mkWr "a321" [
    ("to_v_lof", (90.8, 80.1, 101.5));
    ("to_d_tof", (1.85, 1.18, 2.52));
    ("to_acc_tof", (1.95, 1.49, 2.42));
    ("ic_va_avg", (86, 79, 94));
    ("ic_vs_avg", (13.21, 9.34, 17.11));
    ("cl_d_range", (230, 164, 426));
    ("cl_v_cas_const", (155, 144, 166));
    ("cl_v_mach_const", (0.77, 0.74, 0.81));
    ("cl_h_cas_const", (3.7, 2.1, 5.4));
    ("cl_h_mach_const", (8.4, 7.5, 9.3));
    ("cl_vs_avg_pre_cas", (9.38, 7.03, 11.73));
    ("cl_vs_avg_cas_const", (8.17, 5.91, 10.44));
    ("cl_vs_avg_mach_const", (5.19, 3.33, 7.05));
    ("cr_d_range", (610, 196, 5338));
    ("cr_v_cas_mean", (138, 127, 149));
    ("cr_v_cas_max", (140, 130, 162));
    ("cr_v_mach_mean", (0.78, 0.75, 0.8));
    ("cr_v_mach_max", (0.79, 0.77, 0.84));
    ("cr_h_init", (10.34, 9.23, 11.46));
    ("cr_h_mean", (10.41, 9.36, 11.46));
    ("cr_h_max", (10.56, 9.6, 11.52));
    ("de_d_range", (236, 174, 463));
    ("de_v_mach_const", (0.77, 0.74, 0.8));
    ("de_v_cas_const", (150, 138, 163));
    ("de_h_mach_const", (9, 7.8, 10.3));
    ("de_h_cas_const", (6.2, 3.3, 8.5));
    ("de_vs_avg_mach_const", ((-5.52), (-11.86), (-2.17)));
    ("de_vs_avg_cas_const", ((-9.41), (-13.64), (-5.15)));
    ("de_vs_avg_after_cas", ((-6.01), (-7.78), (-4.24)));
    ("fa_va_avg", (75, 70, 80));
    ("fa_vs_avg", ((-3.69), (-4.36), (-3.01)));
    ("fa_agl", (3.01, 2.36, 3.66));
    ("ld_v_app", (72.9, 66.9, 78.9));
    ("ld_d_brk", (1.55, 0.64, 3.94));
    ("ld_acc_brk", ((-1.21), (-1.98), (-0.45)))];
  mkWr "a332" [
    ("to_v_lof", (89.9, 77.9, 101.9));
    ("to_d_tof", (1.97, 1.16, 2.79));
    ("to_acc_tof", (1.75, 1.32, 2.18));
    ("ic_va_avg", (86, 78, 94));
    ("ic_vs_avg", (12.48, 8.41, 16.57));
    ("cl_d_range", (297, 152, 442));
    ("cl_v_cas_const", (152, 143, 162));
    ("cl_v_mach_const", (0.81, 0.76, 0.84));
    ("cl_h_cas_const", (3.6, 2.3, 6));
    ("cl_h_mach_const", (9.2, 8.3, 10.2));
    ("cl_vs_avg_pre_cas", (9.53, 7.04, 12.02));
    ("cl_vs_avg_cas_const", (7.98, 5.51, 10.47));
    ("cl_vs_avg_mach_const", (5.23, 3.03, 7.45));
    ("cr_d_range", (1023, 229, 11012));
    ("cr_v_cas_mean", (129, 123, 143));
    ("cr_v_cas_max", (135, 126, 160));
    ("cr_v_mach_mean", (0.81, 0.79, 0.84));
    ("cr_v_mach_max", (0.84, 0.81, 0.87));
    ("cr_h_init", (11.33, 9.99, 12.68));
    ("cr_h_mean", (11.67, 10.71, 12.63));
    ("cr_h_max", (11.95, 11.12, 12.79));
    ("de_d_range", (283, 207, 505));
    ("de_v_mach_const", (0.81, 0.76, 0.84));
    ("de_v_cas_const", (152, 136, 162));
    ("de_h_mach_const", (10.2, 8.4, 11.4));
    ("de_h_cas_const", (6.3, 3.6, 9));
    ("de_vs_avg_mach_const", ((-6.28), (-12.53), (-2.85)));
    ("de_vs_avg_cas_const", ((-9.39), (-13.44), (-5.31)));
    ("de_vs_avg_after_cas", ((-5.82), (-7.56), (-4.07)));
    ("fa_va_avg", (72, 67, 78));
    ("fa_vs_avg", ((-3.62), (-4.24), (-2.99)));
    ("fa_agl", (2.98, 2.44, 3.53));
    ("ld_v_app", (70.7, 65.5, 75.9));
    ("ld_d_brk", (1.54, 0.87, 3.67));
    ("ld_acc_brk", ((-1.18), (-1.85), (-0.5)))];
  mkWr "a333" [
    ("to_v_lof", (89.9, 77.8, 102.1));
    ("to_d_tof", (1.86, 1.27, 3.01));
    ("to_acc_tof", (1.72, 1.32, 2.13));
    ("ic_va_avg", (87, 79, 94));
    ("ic_vs_avg", (12.28, 8.47, 16.11));
    ("cl_d_range", (287, 174, 456));
    ("cl_v_cas_const", (153, 142, 165));
    ("cl_v_mach_const", (0.8, 0.75, 0.84));
    ("cl_h_cas_const", (3.1, 1.9, 6.2));
    ("cl_h_mach_const", (9.1, 8, 10.2));
    ("cl_vs_avg_pre_cas", (8.82, 6.46, 11.19));
    ("cl_vs_avg_cas_const", (7.65, 5.24, 10.08));
    ("cl_vs_avg_mach_const", (4.56, 3.14, 7.9));
    ("cr_d_range", (789, 604, 8911));
    ("cr_v_cas_mean", (131, 124, 144));
    ("cr_v_cas_max", (137, 128, 161));
    ("cr_v_mach_mean", (0.81, 0.79, 0.83));
    ("cr_v_mach_max", (0.83, 0.81, 0.87));
    ("cr_h_init", (11.1, 9.74, 12.46));
    ("cr_h_mean", (11.49, 10.54, 12.45));
    ("cr_h_max", (12.53, 10.63, 12.48));
    ("de_d_range", (284, 214, 508));
    ("de_v_mach_const", (0.81, 0.77, 0.84));
    ("de_v_cas_const", (150, 137, 162));
    ("de_h_mach_const", (10.2, 8.5, 11.3));
    ("de_h_cas_const", (6.3, 3.4, 9.1));
    ("de_vs_avg_mach_const", ((-6.17), (-12.5), (-2.68)));
    ("de_vs_avg_cas_const", ((-9.03), (-13.07), (-4.96)));
    ("de_vs_avg_after_cas", ((-5.74), (-7.41), (-4.06)));
    ("fa_va_avg", (73, 69, 78));
    ("fa_vs_avg", ((-3.74), (-4.22), (-2.97)));
    ("fa_agl", (2.97, 2.44, 3.49));
    ("ld_v_app", (71.5, 65.5, 77.6));
    ("ld_d_brk", (1.48, 0.81, 3.79));
    ("ld_acc_brk", ((-1.2), (-1.86), (-0.53)))];
  mkWr "a343" [
    ("to_v_lof", (87, 76, 98.2));
    ("to_d_tof", (2.16, 1.46, 3.82));
    ("to_acc_tof", (1.4, 1.01, 1.8));
    ("ic_va_avg", (84, 76, 93));
    ("ic_vs_avg", (6.44, 4.82, 11.01));
    ("cl_d_range", (293, 154, 431));
    ("cl_v_cas_const", (155, 144, 169));
    ("cl_v_mach_const", (0.78, 0.75, 0.81));
    ("cl_h_cas_const", (3.6, 1.7, 5.5));
    ("cl_h_mach_const", (8.5, 7.3, 9.8));
    ("cl_vs_avg_pre_cas", (6.54, 5.09, 10.41));
    ("cl_vs_avg_cas_const", (6.59, 4.87, 10.05));
    ("cl_vs_avg_mach_const", (4.08, 2.65, 7.17));
    ("cr_d_range", (6021, (-1865), 13929));
    ("cr_v_cas_mean", (138, 128, 148));
    ("cr_v_cas_max", (149, 132, 165));
    ("cr_v_mach_mean", (0.81, 0.79, 0.83));
    ("cr_v_mach_max", (0.83, 0.81, 0.88));
    ("cr_h_init", (10.01, 8.92, 12.09));
    ("cr_h_mean", (10.86, 10.12, 12.1));
    ("cr_h_max", (11.7, 10.61, 12.35));
    ("de_d_range", (281, 203, 489));
    ("de_v_mach_const", (0.81, 0.76, 0.84));
    ("de_v_cas_const", (154, 138, 165));
    ("de_h_mach_const", (9.9, 8.3, 11.1));
    ("de_h_cas_const", (5.8, 3, 8.8));
    ("de_vs_avg_mach_const", ((-5.84), (-12.15), (-2.68)));
    ("de_vs_avg_cas_const", ((-9.27), (-13.56), (-4.97)));
    ("de_vs_avg_after_cas", ((-5.5), (-7.22), (-3.78)));
    ("fa_va_avg", (74, 69, 79));
    ("fa_vs_avg", ((-3.64), (-4.31), (-2.97)));
    ("fa_agl", (3.04, 2.47, 3.61));
    ("ld_v_app", (72.2, 67.5, 77));
    ("ld_d_brk", (1.65, 0.92, 3.99));
    ("ld_acc_brk", ((-1.01), (-1.83), (-0.49)))];
  mkWr "a388" [
    ("to_v_lof", (89.9, 75.4, 104.4));
    ("to_d_tof", (2.56, 1.35, 3.78));
    ("to_acc_tof", (1.35, 1.04, 1.66));
    ("ic_va_avg", (88, 80, 96));
    ("ic_vs_avg", (5.65, 4.4, 8.94));
    ("cl_d_range", (296, 200, 446));
    ("cl_v_cas_const", (163, 155, 170));
    ("cl_v_mach_const", (0.84, 0.8, 0.86));
    ("cl_h_cas_const", (3.3, 1.3, 5.3));
    ("cl_h_mach_const", (8.9, 8.2, 9.7));
    ("cl_vs_avg_pre_cas", (7.85, 5.95, 9.75));
    ("cl_vs_avg_cas_const", (7.51, 5.2, 9.82));
    ("cl_vs_avg_mach_const", (5.56, 3.23, 7.91));
    ("cr_d_range", (4348, 892, 20565));
    ("cr_v_cas_mean", (136, 130, 145));
    ("cr_v_cas_max", (145, 134, 164));
    ("cr_v_mach_mean", (0.84, 0.82, 0.86));
    ("cr_v_mach_max", (0.87, 0.85, 0.9));
    ("cr_h_init", (11.55, 9.3, 12.23));
    ("cr_h_mean", (11.73, 10.87, 12.28));
    ("cr_h_max", (12.06, 11.52, 12.6));
    ("de_d_range", (310, 238, 528));
    ("de_v_mach_const", (0.83, 0.8, 0.87));
    ("de_v_cas_const", (154, 142, 167));
    ("de_h_mach_const", (10.1, 8.6, 11.5));
    ("de_h_cas_const", (6.6, 3.9, 9.4));
    ("de_vs_avg_mach_const", ((-6.06), (-11.9), (-2.97)));
    ("de_vs_avg_cas_const", ((-8.36), (-11.74), (-4.97)));
    ("de_vs_avg_after_cas", ((-5.48), (-6.93), (-4.02)));
    ("fa_va_avg", (73, 68, 77));
    ("fa_vs_avg", ((-3.71), (-4.13), (-2.92)));
    ("fa_agl", (2.9, 2.42, 3.38));
    ("ld_v_app", (70, 62.1, 78));
    ("ld_d_brk", (2.26, 0.73, 3.8));
    ("ld_acc_brk", ((-1.01), (-1.51), (-0.52)))];
  mkWr "b737" [
    ("to_v_lof", (83.6, 72.3, 94.8));
    ("to_d_tof", (1.5, 1.03, 2.58));
    ("to_acc_tof", (1.77, 1.31, 2.23));
    ("ic_va_avg", (81, 71, 91));
    ("ic_vs_avg", (11.93, 8.05, 15.83));
    ("cl_d_range", (204, 155, 348));
    ("cl_v_cas_const", (151, 139, 164));
    ("cl_v_mach_const", (0.78, 0.72, 0.81));
    ("cl_h_cas_const", (3.4, 2.2, 6.1));
    ("cl_h_mach_const", (8.9, 7.9, 9.8));
    ("cl_vs_avg_pre_cas", (11.4, 8.01, 14.82));
    ("cl_vs_avg_cas_const", (11.71, 8.49, 14.93));
    ("cl_vs_avg_mach_const", (6.74, 4.4, 9.08));
    ("cr_d_range", (453, 175, 4929));
    ("cr_v_cas_mean", (122, 115, 136));
    ("cr_v_cas_max", (126, 118, 150));
    ("cr_v_mach_mean", (0.78, 0.74, 0.8));
    ("cr_v_mach_max", (0.8, 0.76, 0.83));
    ("cr_h_init", (12.52, 10.36, 12.47));
    ("cr_h_mean", (11.74, 10.73, 12.75));
    ("cr_h_max", (11.9, 11.03, 12.78));
    ("de_d_range", (244, 173, 566));
    ("de_v_mach_const", (0.78, 0.7, 0.81));
    ("de_v_cas_const", (146, 133, 159));
    ("de_h_mach_const", (9.6, 8.1, 11.2));
    ("de_h_cas_const", (5.7, 3, 8.5));
    ("de_vs_avg_mach_const", ((-5.63), (-13.13), (-2.29)));
    ("de_vs_avg_cas_const", ((-9.39), (-14.21), (-4.55)));
    ("de_vs_avg_after_cas", ((-5.85), (-7.84), (-3.86)));
    ("fa_va_avg", (70, 65, 80));
    ("fa_vs_avg", ((-3.58), (-4.45), (-2.7)));
    ("fa_agl", (3.08, 2.28, 3.87));
    ("ld_v_app", (68.8, 62.9, 74.6));
    ("ld_d_brk", (1.91, 0.66, 4.39));
    ("ld_acc_brk", ((-0.83), (-1.9), (-0.31)))];
  mkWr "b738" [
    ("to_v_lof", (86.5, 75, 98));
    ("to_d_tof", (1.64, 1.13, 2.63));
    ("to_acc_tof", (1.82, 1.37, 2.28));
    ("ic_va_avg", (87, 80, 93));
    ("ic_vs_avg", (12.27, 8.29, 16.26));
    ("cl_d_range", (216, 168, 350));
    ("cl_v_cas_const", (151, 140, 161));
    ("cl_v_mach_const", (0.77, 0.75, 0.8));
    ("cl_h_cas_const", (3.6, 1.8, 5.4));
    ("cl_h_mach_const", (8.9, 7.9, 9.8));
    ("cl_vs_avg_pre_cas", (10.61, 7.83, 13.41));
    ("cl_vs_avg_cas_const", (10.24, 7.7, 12.8));
    ("cl_vs_avg_mach_const", (6.2, 4.31, 8.11));
    ("cr_d_range", (929, 502, 4953));
    ("cr_v_cas_mean", (130, 121, 139));
    ("cr_v_cas_max", (132, 125, 151));
    ("cr_v_mach_mean", (0.78, 0.75, 0.8));
    ("cr_v_mach_max", (0.8, 0.77, 0.83));
    ("cr_h_init", (11.13, 10.16, 12.1));
    ("cr_h_mean", (11.23, 10.35, 12.12));
    ("cr_h_max", (11.38, 10.57, 12.19));
    ("de_d_range", (241, 179, 472));
    ("de_v_mach_const", (0.77, 0.73, 0.81));
    ("de_v_cas_const", (145, 132, 159));
    ("de_h_mach_const", (9.7, 8.3, 11.1));
    ("de_h_cas_const", (5.9, 3.2, 8.7));
    ("de_vs_avg_mach_const", ((-5.8), (-12.73), (-2.11)));
    ("de_vs_avg_cas_const", ((-9.95), (-14.39), (-5.48)));
    ("de_vs_avg_after_cas", ((-6.23), (-7.91), (-4.53)));
    ("fa_va_avg", (77, 72, 82));
    ("fa_vs_avg", ((-3.84), (-4.56), (-3.12)));
    ("fa_agl", (3.02, 2.33, 3.72));
    ("ld_v_app", (75.4, 69.5, 81.3));
    ("ld_d_brk", (1.25, 0.68, 3.6));
    ("ld_acc_brk", ((-1.36), (-2.14), (-0.57)))];
  mkWr "b739" [
    ("to_v_lof", (91.3, 77.6, 105));
    ("to_d_tof", (1.91, 1.14, 2.9));
    ("to_acc_tof", (1.87, 1.41, 2.32));
    ("ic_va_avg", (91, 84, 99));
    ("ic_vs_avg", (12.36, 7.85, 16.9));
    ("cl_d_range", (239, 142, 337));
    ("cl_v_cas_const", (154, 143, 166));
    ("cl_v_mach_const", (0.78, 0.75, 0.81));
    ("cl_h_cas_const", (3.4, 2.3, 5.9));
    ("cl_h_mach_const", (8.6, 7.7, 9.5));
    ("cl_vs_avg_pre_cas", (10.18, 7.64, 12.72));
    ("cl_vs_avg_cas_const", (8.88, 6.66, 11.12));
    ("cl_vs_avg_mach_const", (5.55, 3.67, 7.43));
    ("cr_d_range", (338, 193, 4458));
    ("cr_v_cas_mean", (138, 127, 149));
    ("cr_v_cas_max", (145, 131, 159));
    ("cr_v_mach_mean", (0.78, 0.76, 0.81));
    ("cr_v_mach_max", (0.81, 0.78, 0.84));
    ("cr_h_init", (10.43, 9.43, 11.43));
    ("cr_h_mean", (10.52, 9.63, 11.41));
    ("cr_h_max", (10.74, 9.73, 11.61));
    ("de_d_range", (245, 180, 505));
    ("de_v_mach_const", (0.78, 0.73, 0.8));
    ("de_v_cas_const", (148, 138, 159));
    ("de_h_mach_const", (9.4, 8.2, 10.6));
    ("de_h_cas_const", (6.5, 4.2, 8.8));
    ("de_vs_avg_mach_const", ((-4.78), (-11.29), (-1.79)));
    ("de_vs_avg_cas_const", ((-8.96), (-13.87), (-4.17)));
    ("de_vs_avg_after_cas", ((-6.02), (-7.69), (-4.35)));
    ("fa_va_avg", (78, 72, 83));
    ("fa_vs_avg", ((-3.92), (-4.72), (-3.13)));
    ("fa_agl", (3.03, 2.43, 3.64));
    ("ld_v_app", (76.8, 70.5, 83.2));
    ("ld_d_brk", (1.45, 0.7, 4.22));
    ("ld_acc_brk", ((-1.33), (-2.12), (-0.54)))];
  mkWr "b744" [
    ("to_v_lof", (92.4, 79.3, 105.4));
    ("to_d_tof", (2.29, 1.27, 3.31));
    ("to_acc_tof", (1.67, 1.21, 2.13));
    ("ic_va_avg", (91, 82, 101));
    ("ic_vs_avg", (9.24, 6.76, 13.74));
    ("cl_d_range", (223, 175, 374));
    ("cl_v_cas_const", (168, 157, 180));
    ("cl_v_mach_const", (0.84, 0.81, 0.87));
    ("cl_h_cas_const", (3.9, 2.2, 5.6));
    ("cl_h_mach_const", (8.3, 7.6, 9.7));
    ("cl_vs_avg_pre_cas", (8.66, 6, 11.33));
    ("cl_vs_avg_cas_const", (8.77, 6.65, 13.11));
    ("cl_vs_avg_mach_const", (6.72, 4.07, 9.39));
    ("cr_d_range", (5580, (-1544), 12725));
    ("cr_v_cas_mean", (146, 134, 158));
    ("cr_v_cas_max", (157, 139, 174));
    ("cr_v_mach_mean", (0.84, 0.82, 0.87));
    ("cr_v_mach_max", (0.87, 0.84, 0.92));
    ("cr_h_init", (10.28, 8.87, 11.7));
    ("cr_h_mean", (10.81, 9.77, 11.84));
    ("cr_h_max", (11.29, 10.17, 12.4));
    ("de_d_range", (262, 195, 510));
    ("de_v_mach_const", (0.83, 0.77, 0.87));
    ("de_v_cas_const", (152, 139, 164));
    ("de_h_mach_const", (10, 8.7, 11.3));
    ("de_h_cas_const", (6.6, 4, 9.2));
    ("de_vs_avg_mach_const", ((-5.43), (-12.37), (-2.2)));
    ("de_vs_avg_cas_const", ((-9.17), (-13.85), (-4.48)));
    ("de_vs_avg_after_cas", ((-6.29), (-8.02), (-4.55)));
    ("fa_va_avg", (79, 72, 85));
    ("fa_vs_avg", ((-4.03), (-4.6), (-3.03)));
    ("fa_agl", (2.98, 2.33, 3.64));
    ("ld_v_app", (77.9, 71, 84.9));
    ("ld_d_brk", (1.64, 0.93, 4.06));
    ("ld_acc_brk", ((-1.18), (-1.98), (-0.6)))];
  mkWr "b752" [
    ("to_v_lof", (90.5, 76.8, 104.3));
    ("to_d_tof", (1.7, 0.98, 2.66));
    ("to_acc_tof", (1.91, 1.46, 2.37));
    ("ic_va_avg", (88, 78, 98));
    ("ic_vs_avg", (12.99, 8.6, 17.4));
    ("cl_d_range", (220, 167, 384));
    ("cl_v_cas_const", (155, 144, 166));
    ("cl_v_mach_const", (0.79, 0.75, 0.82));
    ("cl_h_cas_const", (4, 2.3, 5.7));
    ("cl_h_mach_const", (8.7, 8, 9.5));
    ("cl_vs_avg_pre_cas", (10.29, 7.8, 12.8));
    ("cl_vs_avg_cas_const", (8.95, 6.41, 11.51));
    ("cl_vs_avg_mach_const", (6.23, 3.8, 8.67));
    ("cr_d_range", (497, 512, 6087));
    ("cr_v_cas_mean", (131, 123, 145));
    ("cr_v_cas_max", (138, 128, 159));
    ("cr_v_mach_mean", (0.79, 0.77, 0.82));
    ("cr_v_mach_max", (0.81, 0.79, 0.86));
    ("cr_h_init", (11, 9.96, 12.05));
    ("cr_h_mean", (11.17, 10.28, 12.07));
    ("cr_h_max", (11.64, 10.39, 12.22));
    ("de_d_range", (247, 178, 504));
    ("de_v_mach_const", (0.79, 0.75, 0.82));
    ("de_v_cas_const", (151, 137, 165));
    ("de_h_mach_const", (9.4, 8, 10.8));
    ("de_h_cas_const", (6.3, 3.9, 8.8));
    ("de_vs_avg_mach_const", ((-6.8), (-12.65), (-2.52)));
    ("de_vs_avg_cas_const", ((-9.56), (-14.46), (-4.64)));
    ("de_vs_avg_after_cas", ((-6.16), (-7.9), (-4.41)));
    ("fa_va_avg", (69, 62, 76));
    ("fa_vs_avg", ((-3.41), (-4.2), (-2.62)));
    ("fa_agl", (3.09, 2.2, 3.98));
    ("ld_v_app", (66.7, 60.2, 73.2));
    ("ld_d_brk", (1.21, 0.68, 3.43));
    ("ld_acc_brk", ((-1.03), (-1.85), (-0.46)))];
  mkWr "b763" [
    ("to_v_lof", (92.4, 79.6, 105.3));
    ("to_d_tof", (1.82, 1.03, 2.61));
    ("to_acc_tof", (1.97, 1.46, 2.49));
    ("ic_va_avg", (88, 80, 96));
    ("ic_vs_avg", (14.28, 9.45, 19.12));
    ("cl_d_range", (202, 160, 338));
    ("cl_v_cas_const", (159, 146, 171));
    ("cl_v_mach_const", (0.79, 0.76, 0.83));
    ("cl_h_cas_const", (4, 2.6, 5.5));
    ("cl_h_mach_const", (8.3, 7.6, 9.8));
    ("cl_vs_avg_pre_cas", (10.16, 7.27, 13.07));
    ("cl_vs_avg_cas_const", (10.26, 7.06, 13.48));
    ("cl_vs_avg_mach_const", (6.95, 3.76, 10.16));
    ("cr_d_range", (1201, 562, 9544));
    ("cr_v_cas_mean", (137, 127, 148));
    ("cr_v_cas_max", (142, 132, 165));
    ("cr_v_mach_mean", (0.8, 0.77, 0.83));
    ("cr_v_mach_max", (0.82, 0.79, 0.87));
    ("cr_h_init", (10.65, 9.11, 11.75));
    ("cr_h_mean", (10.81, 9.9, 11.73));
    ("cr_h_max", (11.17, 10.3, 12.04));
    ("de_d_range", (244, 178, 489));
    ("de_v_mach_const", (0.79, 0.76, 0.83));
    ("de_v_cas_const", (151, 139, 164));
    ("de_h_mach_const", (9.5, 8.3, 10.8));
    ("de_h_cas_const", (6.7, 4.4, 9));
    ("de_vs_avg_mach_const", ((-6.29), (-13.2), (-2.33)));
    ("de_vs_avg_cas_const", ((-9.98), (-14.99), (-4.94)));
    ("de_vs_avg_after_cas", ((-6.29), (-7.99), (-4.58)));
    ("fa_va_avg", (74, 68, 80));
    ("fa_vs_avg", ((-3.76), (-4.37), (-2.75)));
    ("fa_agl", (2.98, 2.22, 3.74));
    ("ld_v_app", (72.1, 65.3, 78.9));
    ("ld_d_brk", (1.51, 0.66, 3.71));
    ("ld_acc_brk", ((-1.1), (-1.94), (-0.52)))];
  mkWr "b77w" [
    ("to_v_lof", (96.4, 83.9, 109));
    ("to_d_tof", (2.21, 1.38, 3.04));
    ("to_acc_tof", (1.89, 1.45, 2.33));
    ("ic_va_avg", (98, 88, 106));
    ("ic_vs_avg", (13.02, 9.69, 16.36));
    ("cl_d_range", (214, 173, 354));
    ("cl_v_cas_const", (164, 158, 170));
    ("cl_v_mach_const", (0.83, 0.8, 0.86));
    ("cl_h_cas_const", (3.8, 1.8, 5.9));
    ("cl_h_mach_const", (8.8, 8.1, 9.5));
    ("cl_vs_avg_pre_cas", (8.99, 6.8, 11.19));
    ("cl_vs_avg_cas_const", (8.55, 6.41, 12.95));
    ("cl_vs_avg_mach_const", (5.76, 3.31, 10.81));
    ("cr_d_range", (4843, 758, 14177));
    ("cr_v_cas_mean", (148, 139, 158));
    ("cr_v_cas_max", (159, 142, 175));
    ("cr_v_mach_mean", (0.84, 0.82, 0.86));
    ("cr_v_mach_max", (0.86, 0.84, 0.91));
    ("cr_h_init", (9.63, 8.74, 11.52));
    ("cr_h_mean", (10.35, 9.75, 11.4));
    ("cr_h_max", (11, 10.31, 11.69));
    ("de_d_range", (257, 197, 476));
    ("de_v_mach_const", (0.82, 0.79, 0.86));
    ("de_v_cas_const", (156, 140, 167));
    ("de_h_mach_const", (9.7, 8.6, 10.8));
    ("de_h_cas_const", (6.7, 4.2, 9.2));
    ("de_vs_avg_mach_const", ((-7.04), (-12.03), (-2.02)));
    ("de_vs_avg_cas_const", ((-9.05), (-13.36), (-4.72)));
    ("de_vs_avg_after_cas", ((-6.3), (-7.92), (-4.67)));
    ("fa_va_avg", (78, 73, 83));
    ("fa_vs_avg", ((-4.03), (-4.49), (-3.27)));
    ("fa_agl", (2.95, 2.44, 3.46));
    ("ld_v_app", (76.9, 70.8, 83.1));
    ("ld_d_brk", (1.49, 0.84, 3.52));
    ("ld_acc_brk", ((-1.33), (-2), (-0.66)))];
  mkWr "b788" [
    ("to_v_lof", (90.3, 74.4, 106.3));
    ("to_d_tof", (2.16, 1.08, 3.25));
    ("to_acc_tof", (1.61, 1.16, 2.07));
    ("ic_va_avg", (87, 78, 97));
    ("ic_vs_avg", (10.65, 6.27, 14.45));
    ("cl_d_range", (286, 146, 427));
    ("cl_v_cas_const", (158, 146, 170));
    ("cl_v_mach_const", (0.85, 0.81, 0.87));
    ("cl_h_cas_const", (3.8, 2.5, 6.3));
    ("cl_h_mach_const", (9.5, 8.4, 10.6));
    ("cl_vs_avg_pre_cas", (9.58, 7.32, 11.85));
    ("cl_vs_avg_cas_const", (9.02, 6.12, 11.93));
    ("cl_vs_avg_mach_const", (6.02, 3.59, 8.47));
    ("cr_d_range", (1874, 269, 11619));
    ("cr_v_cas_mean", (132, 126, 146));
    ("cr_v_cas_max", (139, 130, 164));
    ("cr_v_mach_mean", (0.85, 0.83, 0.87));
    ("cr_v_mach_max", (0.87, 0.85, 0.91));
    ("cr_h_init", (11.65, 10.37, 12.92));
    ("cr_h_mean", (12.01, 11.16, 12.85));
    ("cr_h_max", (12.28, 11.52, 13.06));
    ("de_d_range", (292, 219, 551));
    ("de_v_mach_const", (0.84, 0.8, 0.87));
    ("de_v_cas_const", (153, 140, 167));
    ("de_h_mach_const", (10.5, 8.8, 11.7));
    ("de_h_cas_const", (7, 4.4, 9.7));
    ("de_vs_avg_mach_const", ((-7.59), (-14.16), (-3.35)));
    ("de_vs_avg_cas_const", ((-9.52), (-13.91), (-5.11)));
    ("de_vs_avg_after_cas", ((-6.2), (-7.94), (-4.45)));
    ("fa_va_avg", (75, 70, 80));
    ("fa_vs_avg", ((-3.99), (-4.59), (-3.11)));
    ("fa_agl", (2.88, 2.37, 3.4));
    ("ld_v_app", (71.3, 62, 80.6));
    ("ld_d_brk", (2.08, 0.45, 3.71));
    ("ld_acc_brk", ((-1.12), (-1.79), (-0.46)))];
  mkWr "b789" [
    ("to_v_lof", (96.1, 81.1, 111.2));
    ("to_d_tof", (2.49, 1.31, 3.69));
    ("to_acc_tof", (1.63, 1.2, 2.06));
    ("ic_va_avg", (92, 81, 103));
    ("ic_vs_avg", (10.6, 6.48, 14.74));
    ("cl_d_range", (263, 173, 420));
    ("cl_v_cas_const", (163, 151, 174));
    ("cl_v_mach_const", (0.84, 0.82, 0.87));
    ("cl_h_cas_const", (4.1, 2.3, 5.9));
    ("cl_h_mach_const", (9.1, 8.1, 10.2));
    ("cl_vs_avg_pre_cas", (9.46, 7.18, 11.75));
    ("cl_vs_avg_cas_const", (8.68, 6.04, 11.81));
    ("cl_vs_avg_mach_const", (6.05, 3.63, 8.47));
    ("cr_d_range", (5695, (-3140), 14555));
    ("cr_v_cas_mean", (139, 129, 149));
    ("cr_v_cas_max", (148, 133, 170));
    ("cr_v_mach_mean", (0.85, 0.83, 0.87));
    ("cr_v_mach_max", (0.87, 0.85, 0.92));
    ("cr_h_init", (11.3, 9.42, 12.44));
    ("cr_h_mean", (11.58, 10.72, 12.44));
    ("cr_h_max", (11.99, 11.28, 12.7));
    ("de_d_range", (293, 224, 550));
    ("de_v_mach_const", (0.84, 0.79, 0.87));
    ("de_v_cas_const", (154, 139, 169));
    ("de_h_mach_const", (10.5, 8.6, 11.6));
    ("de_h_cas_const", (7, 4.3, 9.6));
    ("de_vs_avg_mach_const", ((-7.16), (-12.88), (-2.81)));
    ("de_vs_avg_cas_const", ((-9.14), (-13.41), (-4.84)));
    ("de_vs_avg_after_cas", ((-6.19), (-7.91), (-4.46)));
    ("fa_va_avg", (77, 72, 83));
    ("fa_vs_avg", ((-4.15), (-4.71), (-3.15)));
    ("fa_agl", (2.89, 2.36, 3.43));
    ("ld_v_app", (74, 64.8, 83.3));
    ("ld_d_brk", (2.49, 0.68, 4.31));
    ("ld_acc_brk", ((-1.11), (-1.74), (-0.47)))];
  mkWr "e190" [
    ("to_v_lof", (88.1, 78.7, 97.5));
    ("to_d_tof", (1.8, 1.19, 2.42));
    ("to_acc_tof", (1.83, 1.38, 2.28));
    ("ic_va_avg", (78, 66, 91));
    ("ic_vs_avg", (11.19, 5.78, 16.62));
    ("cl_d_range", (215, 162, 389));
    ("cl_v_cas_const", (140, 133, 156));
    ("cl_v_mach_const", (0.75, 0.71, 0.8));
    ("cl_h_cas_const", (3, 1.8, 6.5));
    ("cl_h_mach_const", (9.2, 8.1, 10.2));
    ("cl_vs_avg_pre_cas", (10.44, 7.18, 13.71));
    ("cl_vs_avg_cas_const", (8.93, 6.27, 11.6));
    ("cl_vs_avg_mach_const", (4.82, 2.95, 6.7));
    ("cr_d_range", (734, 464, 2710));
    ("cr_v_cas_mean", (131, 120, 141));
    ("cr_v_cas_max", (137, 124, 150));
    ("cr_v_mach_mean", (0.77, 0.74, 0.81));
    ("cr_v_mach_max", (0.79, 0.76, 0.85));
    ("cr_h_init", (10.99, 9.99, 12));
    ("cr_h_mean", (11.05, 10.05, 12.05));
    ("cr_h_max", (11.16, 10.21, 12.13));
    ("de_d_range", (253, 171, 425));
    ("de_v_mach_const", (0.77, 0.72, 0.81));
    ("de_v_cas_const", (148, 134, 159));
    ("de_h_mach_const", (9.3, 8, 10.6));
    ("de_h_cas_const", (5.4, 2.6, 8.2));
    ("de_vs_avg_mach_const", ((-5.25), (-11.79), (-2.1)));
    ("de_vs_avg_cas_const", ((-9.08), (-13.29), (-4.85)));
    ("de_vs_avg_after_cas", ((-5.9), (-7.92), (-3.88)));
    ("fa_va_avg", (70, 64, 76));
    ("fa_vs_avg", ((-3.57), (-4.34), (-2.81)));
    ("fa_agl", (2.92, 2.38, 3.46));
    ("ld_v_app", (66.9, 56.6, 77.2));
    ("ld_d_brk", (2.1, 0.7, 3.52));
    ("ld_acc_brk", ((-1.08), (-1.8), (-0.36)))]].

(** openap/data/wrap/_synonym.csv *)
Definition shipped_wrapsyn : list (string * string) := [
  ("a124", "b744");
  ("a19n", "a320");
  ("a20n", "a320");
  ("a21n", "a320");
  ("a306", "a332");
  ("a310", "a319");
  ("a318", "a319");
  ("a359", "b789");
  ("at72", "e190");
  ("at75", "e190");
  ("at76", "e190");
  ("b37m", "b737");
  ("b38m", "b737");
  ("b39m", "b737");
  ("b3xm", "b737");
  ("b733", "b737");
  ("b734", "b737");
  ("b735", "b737");
  ("b748", "b744");
  ("b762", "b752");
  ("b772", "b77w");
  ("b773", "b77w");
  ("b77l", "b77w");
  ("c25a", "e190");
  ("c525", "e190");
  ("c550", "e190");
  ("c56x", "e190");
  ("crj2", "e190");
  ("crj9", "e190");
  ("e145", "e190");
  ("e170", "e190");
  ("e75l", "e190");
  ("e195", "e190");
  ("e290", "e190");
  ("glf5", "e190");
  ("gl5t", "e190");
  ("glf6", "e190");
  ("lj45", "e190");
  ("md11", "b77w");
  ("pc24", "e190");
  ("su95", "e190")].
