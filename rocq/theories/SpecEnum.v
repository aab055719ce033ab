(** Specification of the controller models (C29, C82): the marketing name for each pair of
    controller type and hardware type.  Used only in theorem statements. *)
From Verif Require Import Py.

Definition known_models : list (Z * Z * string) :=
  [ (0, 0, "IntelliTouch i5+3S"); (1, 0, "IntelliTouch i7+3"); (2, 0, "IntelliTouch i9+3");
    (3, 0, "IntelliTouch i5+3S"); (4, 0, "IntelliTouch i9+3S"); (5, 0, "IntelliTouch i10+3D");
    (5, 1, "IntelliTouch i10X"); (6, 0, "IntelliTouch i10X"); (10, 0, "SunTouch");
    (11, 0, "Suntouch/Intellicom"); (13, 0, "EasyTouch2 8"); (13, 1, "EasyTouch2 8P");
    (13, 2, "EasyTouch2 4"); (13, 3, "EasyTouch2 4P"); (13, 5, "EasyTouch2 PL4");
    (13, 6, "EasyTouch2 PSL4"); (14, 0, "EasyTouch1 8"); (14, 1, "EasyTouch1 8P");
    (14, 2, "EasyTouch1 4"); (14, 3, "EasyTouch1 4P") ]%string.

(** [is_model c h s]: a controller of type [c] with hardware type [h] is a model [s] *)
Definition is_model (c h : Z) (s : pystr) : Prop :=
  (exists n, In (c, h, n) known_models /\ s = u n)
  \/ (~ In (c, h) (map fst known_models)
      /\ s = u ("Unknown Model C:" ++ string_of_Z c ++ " H:" ++ string_of_Z h)%string).
