(** The presets files shipped with the package
    (pyGCodeDecode/data/default_printer_presets.yaml and
    pyGCodeDecode/examples/data/printer_presets.yaml, which agree line by line)
    as PyYAML loads them (gcode_interpreter.py:840-848).  No proofs here. *)
From Coq Require Import Reals.
From Verif Require Import Py StateGen Setup.
Open Scope R_scope.

(** One printer: the keys in the order of the file. *)
Definition preset (nozzle filament pvel pacc jerk vx vy vz ve : R) (firmware : pval) : dict pval :=
  [(S_ "nozzle_diam", PNum nozzle); (S_ "filament_diam", PNum filament);
   (S_ "p_vel", PNum pvel); (S_ "p_acc", PNum pacc); (S_ "jerk", PNum jerk);
   (S_ "vX", PNum vx); (S_ "vY", PNum vy); (S_ "vZ", PNum vz); (S_ "vE", PNum ve);
   (S_ "firmware", firmware)].
(** data/default_printer_presets.yaml:3-16 *)
Definition anisoprint_a4 : dict pval := preset (4 / 10) (175 / 100) 35 1000 10 180 180 30 33 (PStr (S_ "MKA")).
(** data/default_printer_presets.yaml:18-31 *)
Definition prusa_mini : dict pval := preset (4 / 10) (175 / 100) 35 1250 8 180 180 12 80 (PStr (S_ "marlin_jerk")).
(** data/default_printer_presets.yaml:33-46 *)
Definition prusa_mini_klipper : dict pval := preset (4 / 10) (175 / 100) 35 2500 8 180 180 12 80 (PStr (S_ "klipper")).
(** data/default_printer_presets.yaml:48-61; an empty value is loaded as None. *)
Definition debugging : dict pval := preset (4 / 10) (175 / 100) 85 100 8 180 180 12 80 PNone.
(** The whole file; the one of the examples has the same contents. *)
Definition shipped_presets : dict (dict pval) :=
  [(S_ "anisoprint_a4", anisoprint_a4); (S_ "prusa_mini", prusa_mini);
   (S_ "prusa_mini_klipper", prusa_mini_klipper); (S_ "debugging", debugging)].
