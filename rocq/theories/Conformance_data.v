(** Generated by tools/gen_conformance.py from the JSON files of /repo named below. *)
From Coq Require Import ZArith String List.
From Verif Require Import Base Num Geometry Fixed.
Import ListNotations.
Local Open Scope string_scope.
Local Open Scope Z_scope.

(** test/geometry/testairplanes/straight_wing_5sect.json *)
Definition straight_wing_5sect_json : pyval Z :=
  VDict [
    ("airfoil_DB", VStr "../AirfoilDatabase");
    ("run", VDict [
        ("stl", VStr "");
        ("forces", VStr "")]);
    ("solver", VDict [
        ("type", VStr "linear");
        ("convergence", VNum (ndec (1) 10));
        ("relaxation", VNum (ndec (9) 1))]);
    ("plane", VDict [
        ("name", VStr "myairplane");
        ("CGx", VNum (ndec (-4) 1));
        ("CGy", VNum (ndec (0) 0));
        ("CGz", VNum (ndec (0) 0))]);
    ("reference", VDict [
        ("area", VNum (ndec (8) 0));
        ("longitudinal_length", VNum (ndec (1) 0));
        ("lateral_length", VNum (ndec (8) 0))]);
    ("condition", VDict [
        ("alpha", VNum (ndec (0) 0));
        ("beta", VNum (ndec (0) 0));
        ("ground", VNum (ndec (0) 0))]);
    ("controls", VDict [
        ("aileron", VDict [
            ("is_symmetric", VInt (0));
            ("deflection", VNum (ndec (0) 0))]);
        ("elevator", VDict [
            ("is_symmetric", VInt (1));
            ("deflection", VNum (ndec (0) 0))])]);
    ("wings", VDict [
        ("wing_1", VDict [
            ("ID", VInt (1));
            ("side", VStr "both");
            ("connect", VDict [
                ("ID", VInt (0));
                ("location", VStr "root");
                ("dx", VNum (ndec (0) 0));
                ("dy", VNum (ndec (0) 0));
                ("dz", VNum (ndec (0) 0));
                ("yoffset", VNum (ndec (0) 0))]);
            ("span", VNum (ndec (4) 0));
            ("sweep", VNum (ndec (0) 0));
            ("dihedral", VNum (ndec (0) 0));
            ("mounting_angle", VNum (ndec (0) 0));
            ("washout", VNum (ndec (0) 0));
            ("root_chord", VNum (ndec (1) 0));
            ("tip_chord", VNum (ndec (1) 0));
            ("airfoils", VDict [
                ("NACA_2410", VDict [
                    ("properties", VDict [
                        ("type", VStr "linear");
                        ("alpha_L0", VNum (ndec (-368) 4));
                        ("CL_alpha", VNum (ndec (61976) 4));
                        ("Cm_L0", VNum (ndec (-525) 4));
                        ("Cm_alpha", VNum (ndec (326) 4));
                        ("CD0", VNum (ndec (569) 5));
                        ("CD0_L", VNum (ndec (-45) 4));
                        ("CD0_L2", VNum (ndec (104) 4));
                        ("CL_max", VNum (ndec (14) 1));
                        ("Comments", VStr "All angles in radians and slopes in 1/radians")])])]);
            ("grid", VInt (5));
            ("control", VDict [
                ("span_root", VNum (ndec (7) 1));
                ("span_tip", VNum (ndec (9) 1));
                ("chord_root", VNum (ndec (25) 2));
                ("chord_tip", VNum (ndec (25) 2));
                ("is_sealed", VInt (1));
                ("mix", VDict [
                    ("aileron", VNum (ndec (1) 0));
                    ("elevator", VNum (ndec (1) 0))])])])])].

(** test/geometry/testairplanes/straight_simple_plane.json *)
Definition straight_simple_plane_json : pyval Z :=
  VDict [
    ("airfoil_DB", VStr "./AirfoilDatabase");
    ("run", VDict [
        ("stl", VStr "");
        ("forces", VStr "")]);
    ("solver", VDict [
        ("type", VStr "linear");
        ("convergence", VNum (ndec (1) 10));
        ("relaxation", VNum (ndec (9) 1))]);
    ("plane", VDict [
        ("name", VStr "myairplane");
        ("CGx", VNum (ndec (-25) 2));
        ("CGy", VNum (ndec (0) 0));
        ("CGz", VNum (ndec (0) 0))]);
    ("reference", VDict [
        ("area", VNum (ndec (8) 0));
        ("longitudinal_length", VNum (ndec (1) 0));
        ("lateral_length", VNum (ndec (8) 0))]);
    ("condition", VDict [
        ("alpha", VNum (ndec (5) 0));
        ("beta", VNum (ndec (3) 0));
        ("ground", VNum (ndec (0) 0))]);
    ("controls", VDict [
        ("aileron", VDict [
            ("is_symmetric", VInt (0));
            ("deflection", VNum (ndec (-4) 0))]);
        ("elevator", VDict [
            ("is_symmetric", VInt (1));
            ("deflection", VNum (ndec (2) 0))]);
        ("rudder", VDict [
            ("is_symmetric", VInt (1));
            ("deflection", VNum (ndec (-2) 0))])]);
    ("wings", VDict [
        ("wing_1", VDict [
            ("ID", VInt (1));
            ("side", VStr "both");
            ("connect", VDict [
                ("ID", VInt (0));
                ("location", VStr "root");
                ("dx", VNum (ndec (0) 0));
                ("dy", VNum (ndec (0) 0));
                ("dz", VNum (ndec (0) 0));
                ("yoffset", VNum (ndec (0) 0))]);
            ("span", VNum (ndec (4) 0));
            ("sweep", VNum (ndec (0) 0));
            ("dihedral", VNum (ndec (5) 0));
            ("mounting_angle", VNum (ndec (3) 0));
            ("washout", VNum (ndec (0) 0));
            ("root_chord", VNum (ndec (1) 0));
            ("tip_chord", VNum (ndec (1) 0));
            ("airfoils", VDict [
                ("NACA_2410", VDict [
                    ("properties", VDict [
                        ("type", VStr "linear");
                        ("alpha_L0", VNum (ndec (-368) 4));
                        ("CL_alpha", VNum (ndec (61976) 4));
                        ("Cm_L0", VNum (ndec (-525) 4));
                        ("Cm_alpha", VNum (ndec (326) 4));
                        ("CD0", VNum (ndec (569) 5));
                        ("CD0_L", VNum (ndec (-45) 4));
                        ("CD0_L2", VNum (ndec (104) 4));
                        ("CL_max", VNum (ndec (14) 1));
                        ("Comments", VStr "All angles in radians and slopes in 1/radians")])])]);
            ("grid", VInt (5));
            ("control", VDict [
                ("span_root", VNum (ndec (7) 1));
                ("span_tip", VNum (ndec (9) 1));
                ("chord_root", VNum (ndec (25) 2));
                ("chord_tip", VNum (ndec (25) 2));
                ("is_sealed", VInt (1));
                ("mix", VDict [
                    ("aileron", VNum (ndec (1) 0))])])]);
        ("horizontal_stab", VDict [
            ("ID", VInt (2));
            ("side", VStr "both");
            ("connect", VDict [
                ("ID", VInt (0));
                ("location", VStr "root");
                ("dx", VNum (ndec (-4) 0));
                ("dy", VNum (ndec (0) 0));
                ("dz", VNum (ndec (0) 0));
                ("yoffset", VNum (ndec (0) 0))]);
            ("span", VNum (ndec (1) 0));
            ("sweep", VNum (ndec (0) 0));
            ("dihedral", VNum (ndec (0) 0));
            ("mounting_angle", VNum (ndec (0) 0));
            ("washout", VNum (ndec (0) 0));
            ("root_chord", VNum (ndec (25) 2));
            ("tip_chord", VNum (ndec (25) 2));
            ("airfoils", VDict [
                ("NACA_0010", VDict [
                    ("properties", VDict [
                        ("type", VStr "linear");
                        ("alpha_L0", VNum (ndec (0) 0));
                        ("CL_alpha", VNum (ndec (64336) 4));
                        ("Cm_L0", VNum (ndec (0) 0));
                        ("Cm_alpha", VNum (ndec (0) 0));
                        ("CD0", VNum (ndec (513) 5));
                        ("CD0_L", VNum (ndec (0) 0));
                        ("CD0_L2", VNum (ndec (984) 5));
                        ("CL_max", VNum (ndec (14) 1));
                        ("Comments", VStr "All angles in radians and slopes in 1/radians")])])]);
            ("grid", VInt (5));
            ("control", VDict [
                ("span_root", VNum (ndec (0) 0));
                ("span_tip", VNum (ndec (1) 0));
                ("chord_root", VNum (ndec (25) 2));
                ("chord_tip", VNum (ndec (25) 2));
                ("is_sealed", VInt (1));
                ("mix", VDict [
                    ("elevator", VNum (ndec (1) 0))])])]);
        ("vertical_stab", VDict [
            ("ID", VInt (3));
            ("side", VStr "right");
            ("connect", VDict [
                ("ID", VInt (0));
                ("location", VStr "root");
                ("dx", VNum (ndec (-4) 0));
                ("dy", VNum (ndec (0) 0));
                ("dz", VNum (ndec (0) 0));
                ("yoffset", VNum (ndec (0) 0))]);
            ("span", VNum (ndec (1) 0));
            ("sweep", VNum (ndec (0) 0));
            ("dihedral", VNum (ndec (90) 0));
            ("mounting_angle", VNum (ndec (0) 0));
            ("washout", VNum (ndec (0) 0));
            ("root_chord", VNum (ndec (25) 2));
            ("tip_chord", VNum (ndec (25) 2));
            ("airfoils", VDict [
                ("NACA_0010", VDict [
                    ("properties", VDict [
                        ("type", VStr "linear");
                        ("alpha_L0", VNum (ndec (0) 0));
                        ("CL_alpha", VNum (ndec (64336) 4));
                        ("Cm_L0", VNum (ndec (0) 0));
                        ("Cm_alpha", VNum (ndec (0) 0));
                        ("CD0", VNum (ndec (513) 5));
                        ("CD0_L", VNum (ndec (0) 0));
                        ("CD0_L2", VNum (ndec (984) 5));
                        ("CL_max", VNum (ndec (14) 1));
                        ("Comments", VStr "All angles in radians and slopes in 1/radians")])])]);
            ("grid", VInt (5));
            ("control", VDict [
                ("span_root", VNum (ndec (0) 0));
                ("span_tip", VNum (ndec (1) 0));
                ("chord_root", VNum (ndec (25) 2));
                ("chord_tip", VNum (ndec (25) 2));
                ("is_sealed", VInt (1));
                ("mix", VDict [
                    ("rudder", VNum (ndec (1) 0))])])])])].

(** test/geometry/testairplanes/test_plane_v2.json *)
Definition test_plane_v2_json : pyval Z :=
  VDict [
    ("tag", VDict [
        ("UUID", VStr "C1F95352-8778-4C0A-ADEB-42E2741678A7");
        ("date", VStr "2017-07-11T18:41:07.131Z");
        ("version", VStr "MachUp 4.0")]);
    ("run", VDict [
        ("pitchtrim", VDict [
            ("CL", VInt (1));
            ("Cm", VInt (0))])]);
    ("solver", VDict [
        ("type", VStr "linear");
        ("convergence", VNum (ndec (1) 6));
        ("relaxation", VNum (ndec (9) 1))]);
    ("plane", VDict [
        ("name", VStr "MyAirplane");
        ("CGx", VNum (ndec (-4924208687044246) 15));
        ("CGy", VInt (0));
        ("CGz", VInt (0))]);
    ("reference", VDict [
        ("area", VNum (ndec (43033000000000004) 14));
        ("longitudinal_length", VNum (ndec (115) 1));
        ("lateral_length", VNum (ndec (3742) 2))]);
    ("condition", VDict [
        ("alpha", VNum (ndec (5) 0));
        ("beta", VNum (ndec (3) 0))]);
    ("controls", VDict [
        ("elevator", VDict [
            ("is_symmetric", VInt (1));
            ("deflection", VNum (ndec (2) 0))]);
        ("rudder", VDict [
            ("is_symmetric", VInt (0));
            ("deflection", VNum (ndec (-2) 0))]);
        ("aileron", VDict [
            ("is_symmetric", VInt (0));
            ("deflection", VNum (ndec (-4) 0))]);
        ("flap", VDict [
            ("is_symmetric", VInt (1));
            ("deflection", VInt (0))])]);
    ("airfoil_DB", VStr ".");
    ("wings", VDict [
        ("Wing_1", VDict [
            ("name", VStr "Wing_1");
            ("ID", VInt (1));
            ("is_main", VInt (1));
            ("side", VStr "both");
            ("connect", VDict [
                ("ID", VInt (0));
                ("location", VStr "tip");
                ("dx", VInt (0));
                ("dy", VInt (0));
                ("dz", VNum (ndec (-10046727256955972) 16));
                ("yoffset", VInt (0))]);
            ("span", VNum (ndec (1871) 2));
            ("sweep", VInt (20));
            ("dihedral", VInt (-3));
            ("mounting_angle", VInt (0));
            ("washout", VInt (0));
            ("root_chord", VInt (17));
            ("tip_chord", VInt (6));
            ("airfoils", VDict [
                ("NACA_2410", VDict [
                    ("properties", VDict [
                        ("type", VStr "linear");
                        ("alpha_L0", VNum (ndec (-368) 4));
                        ("CL_alpha", VNum (ndec (61976) 4));
                        ("Cm_L0", VNum (ndec (-525) 4));
                        ("Cm_alpha", VNum (ndec (326) 4));
                        ("CD0", VNum (ndec (569) 5));
                        ("CD0_L", VNum (ndec (-45) 4));
                        ("CD0_L2", VNum (ndec (104) 4));
                        ("CL_max", VNum (ndec (14) 1))])]);
                ("af2", VDict [
                    ("properties", VDict [
                        ("type", VStr "linear");
                        ("alpha_L0", VInt (0));
                        ("CL_alpha", VNum (ndec (6283185307) 9));
                        ("Cm_L0", VInt (0));
                        ("Cm_alpha", VInt (0));
                        ("CD0", VInt (0));
                        ("CD0_L", VInt (0));
                        ("CD0_L2", VInt (0));
                        ("CL_max", VNum (ndec (14) 1))])])]);
            ("grid", VInt (10));
            ("control", VDict [
                ("has_control_surface", VBool true);
                ("span_root", VNum (ndec (7) 1));
                ("span_tip", VInt (1));
                ("chord_root", VNum (ndec (25) 2));
                ("chord_tip", VNum (ndec (25) 2));
                ("is_sealed", VInt (1));
                ("mix", VDict [
                    ("elevator", VInt (0));
                    ("rudder", VInt (0));
                    ("aileron", VInt (1));
                    ("flap", VInt (0))])]);
            ("sameAsRoot", VBool true)]);
        ("Wing_2", VDict [
            ("name", VStr "Wing_2");
            ("ID", VInt (2));
            ("is_main", VInt (0));
            ("side", VStr "both");
            ("connect", VDict [
                ("ID", VInt (0));
                ("location", VStr "tip");
                ("dx", VNum (ndec (-12696572093873751) 15));
                ("dy", VInt (0));
                ("dz", VInt (0));
                ("yoffset", VInt (0))]);
            ("span", VNum (ndec (108) 1));
            ("sweep", VInt (40));
            ("dihedral", VInt (0));
            ("mounting_angle", VInt (0));
            ("washout", VInt (0));
            ("root_chord", VInt (11));
            ("tip_chord", VInt (3));
            ("airfoils", VDict [
                ("af1", VDict [
                    ("properties", VDict [
                        ("type", VStr "linear");
                        ("alpha_L0", VInt (0));
                        ("CL_alpha", VNum (ndec (6283185307) 9));
                        ("Cm_L0", VInt (0));
                        ("Cm_alpha", VInt (0));
                        ("CD0", VInt (0));
                        ("CD0_L", VInt (0));
                        ("CD0_L2", VInt (0));
                        ("CL_max", VNum (ndec (14) 1))])]);
                ("af2", VDict [
                    ("properties", VDict [
                        ("type", VStr "linear");
                        ("alpha_L0", VInt (0));
                        ("CL_alpha", VNum (ndec (6283185307) 9));
                        ("Cm_L0", VInt (0));
                        ("Cm_alpha", VInt (0));
                        ("CD0", VInt (0));
                        ("CD0_L", VInt (0));
                        ("CD0_L2", VInt (0));
                        ("CL_max", VNum (ndec (14) 1))])])]);
            ("grid", VInt (10));
            ("control", VDict [
                ("has_control_surface", VBool true);
                ("span_root", VNum (ndec (3) 1));
                ("span_tip", VInt (1));
                ("chord_root", VNum (ndec (2) 1));
                ("chord_tip", VNum (ndec (2) 1));
                ("is_sealed", VInt (1));
                ("mix", VDict [
                    ("elevator", VInt (1));
                    ("rudder", VInt (0));
                    ("aileron", VInt (0));
                    ("flap", VInt (0))])]);
            ("sameAsRoot", VBool true)]);
        ("Wing_3", VDict [
            ("name", VStr "Wing_3");
            ("ID", VInt (3));
            ("is_main", VInt (0));
            ("side", VStr "both");
            ("connect", VDict [
                ("ID", VInt (0));
                ("location", VStr "tip");
                ("dx", VNum (ndec (-14195159912109375) 15));
                ("dy", VInt (0));
                ("dz", VInt (0));
                ("yoffset", VNum (ndec (4) 0))]);
            ("span", VInt (8));
            ("sweep", VInt (30));
            ("dihedral", VInt (70));
            ("mounting_angle", VInt (0));
            ("washout", VInt (0));
            ("root_chord", VNum (ndec (975) 2));
            ("tip_chord", VNum (ndec (35) 1));
            ("airfoils", VDict [
                ("af1", VDict [
                    ("properties", VDict [
                        ("type", VStr "linear");
                        ("alpha_L0", VInt (0));
                        ("CL_alpha", VNum (ndec (6283185307) 9));
                        ("Cm_L0", VInt (0));
                        ("Cm_alpha", VInt (0));
                        ("CD0", VInt (0));
                        ("CD0_L", VInt (0));
                        ("CD0_L2", VInt (0));
                        ("CL_max", VNum (ndec (14) 1))])]);
                ("af2", VDict [
                    ("properties", VDict [
                        ("type", VStr "linear");
                        ("alpha_L0", VInt (0));
                        ("CL_alpha", VNum (ndec (6283185307) 9));
                        ("Cm_L0", VInt (0));
                        ("Cm_alpha", VInt (0));
                        ("CD0", VInt (0));
                        ("CD0_L", VInt (0));
                        ("CD0_L2", VInt (0));
                        ("CL_max", VNum (ndec (14) 1))])])]);
            ("grid", VInt (10));
            ("control", VDict [
                ("has_control_surface", VBool true);
                ("span_root", VNum (ndec (2) 1));
                ("span_tip", VNum (ndec (7) 1));
                ("chord_root", VNum (ndec (2) 1));
                ("chord_tip", VNum (ndec (2) 1));
                ("is_sealed", VInt (1));
                ("mix", VDict [
                    ("elevator", VInt (0));
                    ("rudder", VInt (-1));
                    ("aileron", VInt (0));
                    ("flap", VInt (0))])]);
            ("sameAsRoot", VBool true)])])].

(** test/geometry/testairplanes/vertical_wing_5sect.json *)
Definition vertical_wing_5sect_json : pyval Z :=
  VDict [
    ("airfoil_DB", VStr "./AirfoilDatabase");
    ("run", VDict [
        ("stl", VStr "");
        ("forces", VStr "")]);
    ("solver", VDict [
        ("type", VStr "linear");
        ("convergence", VNum (ndec (1) 10));
        ("relaxation", VNum (ndec (9) 1))]);
    ("plane", VDict [
        ("name", VStr "myairplane");
        ("CGx", VNum (ndec (-4) 1));
        ("CGy", VNum (ndec (0) 0));
        ("CGz", VNum (ndec (0) 0))]);
    ("reference", VDict [
        ("area", VNum (ndec (8) 0));
        ("longitudinal_length", VNum (ndec (1) 0));
        ("lateral_length", VNum (ndec (8) 0))]);
    ("condition", VDict [
        ("alpha", VNum (ndec (0) 0));
        ("beta", VNum (ndec (5) 0));
        ("ground", VNum (ndec (0) 0))]);
    ("controls", VDict [
        ("aileron", VDict [
            ("is_symmetric", VInt (0));
            ("deflection", VNum (ndec (0) 0))]);
        ("elevator", VDict [
            ("is_symmetric", VInt (1));
            ("deflection", VNum (ndec (0) 0))]);
        ("rudder", VDict [
            ("is_symmetric", VInt (1));
            ("deflection", VNum (ndec (0) 0))])]);
    ("wings", VDict [
        ("wing_1", VDict [
            ("ID", VInt (1));
            ("side", VStr "right");
            ("connect", VDict [
                ("ID", VInt (0));
                ("location", VStr "root");
                ("dx", VNum (ndec (0) 0));
                ("dy", VNum (ndec (0) 0));
                ("dz", VNum (ndec (0) 0));
                ("yoffset", VNum (ndec (0) 0))]);
            ("span", VNum (ndec (4) 0));
            ("sweep", VNum (ndec (0) 0));
            ("dihedral", VNum (ndec (90) 0));
            ("mounting_angle", VNum (ndec (0) 0));
            ("washout", VNum (ndec (0) 0));
            ("root_chord", VNum (ndec (1) 0));
            ("tip_chord", VNum (ndec (1) 0));
            ("airfoils", VDict [
                ("NACA_2410", VDict [
                    ("properties", VDict [
                        ("type", VStr "linear");
                        ("alpha_L0", VNum (ndec (-368) 4));
                        ("CL_alpha", VNum (ndec (61976) 4));
                        ("Cm_L0", VNum (ndec (-525) 4));
                        ("Cm_alpha", VNum (ndec (326) 4));
                        ("CD0", VNum (ndec (569) 5));
                        ("CD0_L", VNum (ndec (-45) 4));
                        ("CD0_L2", VNum (ndec (104) 4));
                        ("CL_max", VNum (ndec (14) 1));
                        ("Comments", VStr "All angles in radians and slopes in 1/radians")])])]);
            ("grid", VInt (5));
            ("control", VDict [
                ("span_root", VNum (ndec (0) 0));
                ("span_tip", VNum (ndec (1) 0));
                ("chord_root", VNum (ndec (25) 2));
                ("chord_tip", VNum (ndec (25) 2));
                ("is_sealed", VInt (1));
                ("mix", VDict [
                    ("rudder", VNum (ndec (1) 0))])])])])].

(** test/geometry/testairplanes/swept_wing_5sect.json *)
Definition swept_wing_5sect_json : pyval Z :=
  VDict [
    ("airfoil_DB", VStr "../AirfoilDatabase");
    ("run", VDict [
        ("stl", VStr "");
        ("forces", VStr "")]);
    ("solver", VDict [
        ("type", VStr "linear");
        ("convergence", VNum (ndec (1) 10));
        ("relaxation", VNum (ndec (9) 1))]);
    ("plane", VDict [
        ("name", VStr "myairplane");
        ("CGx", VNum (ndec (-4) 1));
        ("CGy", VNum (ndec (0) 0));
        ("CGz", VNum (ndec (0) 0))]);
    ("reference", VDict [
        ("area", VNum (ndec (20) 0));
        ("longitudinal_length", VNum (ndec (2) 0));
        ("lateral_length", VNum (ndec (10) 0))]);
    ("condition", VDict [
        ("alpha", VNum (ndec (4) 0));
        ("beta", VNum (ndec (0) 0));
        ("ground", VNum (ndec (0) 0))]);
    ("controls", VDict [
        ("aileron", VDict [
            ("is_symmetric", VInt (0));
            ("deflection", VNum (ndec (0) 0))]);
        ("elevator", VDict [
            ("is_symmetric", VInt (1));
            ("deflection", VNum (ndec (0) 0))])]);
    ("wings", VDict [
        ("wing_1", VDict [
            ("ID", VInt (1));
            ("side", VStr "both");
            ("connect", VDict [
                ("ID", VInt (0));
                ("location", VStr "root");
                ("dx", VNum (ndec (0) 0));
                ("dy", VNum (ndec (0) 0));
                ("dz", VNum (ndec (0) 0));
                ("yoffset", VNum (ndec (0) 0))]);
            ("span", VNum (ndec (5) 0));
            ("sweep", VNum (ndec (45) 0));
            ("dihedral", VNum (ndec (0) 0));
            ("mounting_angle", VNum (ndec (0) 0));
            ("washout", VNum (ndec (0) 0));
            ("root_chord", VNum (ndec (2) 0));
            ("tip_chord", VNum (ndec (2) 0));
            ("airfoils", VDict [
                ("NACA_0010", VDict [
                    ("properties", VDict [
                        ("type", VStr "linear");
                        ("alpha_L0", VNum (ndec (0) 0));
                        ("CL_alpha", VNum (ndec (62831853071796) 13));
                        ("Cm_L0", VNum (ndec (0) 0));
                        ("Cm_alpha", VNum (ndec (0) 0));
                        ("CD0", VNum (ndec (569) 5));
                        ("CD0_L", VNum (ndec (-45) 4));
                        ("CD0_L2", VNum (ndec (104) 4));
                        ("CL_max", VNum (ndec (14) 1));
                        ("Comments", VStr "All angles in radians and slopes in 1/radians")])])]);
            ("grid", VInt (5));
            ("control", VDict [
                ("span_root", VNum (ndec (7) 1));
                ("span_tip", VNum (ndec (9) 1));
                ("chord_root", VNum (ndec (25) 2));
                ("chord_tip", VNum (ndec (25) 2));
                ("is_sealed", VInt (1));
                ("mix", VDict [
                    ("aileron", VNum (ndec (1) 0));
                    ("elevator", VNum (ndec (1) 0))])])])])].

(** test/geometry/testairplanes/swept_wing.json *)
Definition swept_wing_json : pyval Z :=
  VDict [
    ("airfoil_DB", VStr "./AirfoilDatabase");
    ("run", VDict [
        ("stl", VStr "");
        ("forces", VStr "")]);
    ("solver", VDict [
        ("type", VStr "linear");
        ("convergence", VNum (ndec (1) 10));
        ("relaxation", VNum (ndec (9) 1))]);
    ("plane", VDict [
        ("name", VStr "myairplane");
        ("CGx", VNum (ndec (-4) 1));
        ("CGy", VNum (ndec (0) 0));
        ("CGz", VNum (ndec (0) 0))]);
    ("reference", VDict [
        ("area", VNum (ndec (20) 0));
        ("longitudinal_length", VNum (ndec (2) 0));
        ("lateral_length", VNum (ndec (10) 0))]);
    ("condition", VDict [
        ("alpha", VNum (ndec (4) 0));
        ("beta", VNum (ndec (0) 0));
        ("ground", VNum (ndec (0) 0))]);
    ("controls", VDict [
        ("aileron", VDict [
            ("is_symmetric", VInt (0));
            ("deflection", VNum (ndec (0) 0))]);
        ("elevator", VDict [
            ("is_symmetric", VInt (1));
            ("deflection", VNum (ndec (0) 0))])]);
    ("wings", VDict [
        ("wing_1", VDict [
            ("ID", VInt (1));
            ("side", VStr "both");
            ("connect", VDict [
                ("ID", VInt (0));
                ("location", VStr "root");
                ("dx", VNum (ndec (0) 0));
                ("dy", VNum (ndec (0) 0));
                ("dz", VNum (ndec (0) 0));
                ("yoffset", VNum (ndec (0) 0))]);
            ("span", VNum (ndec (5) 0));
            ("sweep", VNum (ndec (45) 0));
            ("dihedral", VNum (ndec (0) 0));
            ("mounting_angle", VNum (ndec (0) 0));
            ("washout", VNum (ndec (0) 0));
            ("root_chord", VNum (ndec (2) 0));
            ("tip_chord", VNum (ndec (2) 0));
            ("airfoils", VDict [
                ("NACA_0010", VDict [
                    ("properties", VDict [
                        ("type", VStr "linear");
                        ("alpha_L0", VNum (ndec (0) 0));
                        ("CL_alpha", VNum (ndec (62831853071796) 13));
                        ("Cm_L0", VNum (ndec (0) 0));
                        ("Cm_alpha", VNum (ndec (0) 0));
                        ("CD0", VNum (ndec (569) 5));
                        ("CD0_L", VNum (ndec (-45) 4));
                        ("CD0_L2", VNum (ndec (104) 4));
                        ("CL_max", VNum (ndec (14) 1));
                        ("Comments", VStr "All angles in radians and slopes in 1/radians")])])]);
            ("grid", VInt (50));
            ("control", VDict [
                ("span_root", VNum (ndec (7) 1));
                ("span_tip", VNum (ndec (9) 1));
                ("chord_root", VNum (ndec (25) 2));
                ("chord_tip", VNum (ndec (25) 2));
                ("is_sealed", VInt (1));
                ("mix", VDict [
                    ("aileron", VNum (ndec (1) 0));
                    ("elevator", VNum (ndec (1) 0))])])])])].

(** test/geometry/testairplanes/tapered_wing_5sect.json *)
Definition tapered_wing_5sect_json : pyval Z :=
  VDict [
    ("airfoil_DB", VStr "../AirfoilDatabase");
    ("run", VDict [
        ("stl", VStr "");
        ("forces", VStr "")]);
    ("solver", VDict [
        ("type", VStr "linear");
        ("convergence", VNum (ndec (1) 10));
        ("relaxation", VNum (ndec (9) 1))]);
    ("plane", VDict [
        ("name", VStr "myairplane");
        ("CGx", VNum (ndec (-4) 1));
        ("CGy", VNum (ndec (0) 0));
        ("CGz", VNum (ndec (0) 0))]);
    ("reference", VDict [
        ("area", VNum (ndec (6) 0));
        ("longitudinal_length", VNum (ndec (1) 0));
        ("lateral_length", VNum (ndec (8) 0))]);
    ("condition", VDict [
        ("alpha", VNum (ndec (4) 0));
        ("beta", VNum (ndec (0) 0));
        ("ground", VNum (ndec (0) 0))]);
    ("controls", VDict [
        ("aileron", VDict [
            ("is_symmetric", VInt (0));
            ("deflection", VNum (ndec (0) 0))]);
        ("elevator", VDict [
            ("is_symmetric", VInt (1));
            ("deflection", VNum (ndec (0) 0))])]);
    ("wings", VDict [
        ("wing_1", VDict [
            ("ID", VInt (1));
            ("side", VStr "both");
            ("connect", VDict [
                ("ID", VInt (0));
                ("location", VStr "root");
                ("dx", VNum (ndec (0) 0));
                ("dy", VNum (ndec (0) 0));
                ("dz", VNum (ndec (0) 0));
                ("yoffset", VNum (ndec (0) 0))]);
            ("span", VNum (ndec (4) 0));
            ("sweep", VNum (ndec (0) 0));
            ("dihedral", VNum (ndec (0) 0));
            ("mounting_angle", VNum (ndec (0) 0));
            ("washout", VNum (ndec (0) 0));
            ("root_chord", VNum (ndec (1) 0));
            ("tip_chord", VNum (ndec (5) 1));
            ("airfoils", VDict [
                ("NACA_0010", VDict [
                    ("properties", VDict [
                        ("type", VStr "linear");
                        ("alpha_L0", VNum (ndec (0) 0));
                        ("CL_alpha", VNum (ndec (62831853071796) 13));
                        ("Cm_L0", VNum (ndec (0) 0));
                        ("Cm_alpha", VNum (ndec (0) 0));
                        ("CD0", VNum (ndec (569) 5));
                        ("CD0_L", VNum (ndec (-45) 4));
                        ("CD0_L2", VNum (ndec (104) 4));
                        ("CL_max", VNum (ndec (14) 1));
                        ("Comments", VStr "All angles in radians and slopes in 1/radians")])])]);
            ("grid", VInt (5));
            ("control", VDict [
                ("span_root", VNum (ndec (7) 1));
                ("span_tip", VNum (ndec (9) 1));
                ("chord_root", VNum (ndec (25) 2));
                ("chord_tip", VNum (ndec (25) 2));
                ("is_sealed", VInt (1));
                ("mix", VDict [
                    ("aileron", VNum (ndec (1) 0));
                    ("elevator", VNum (ndec (1) 0))])])])])].

(** test/geometry/testairplanes/washout_wing_5sect.json *)
Definition washout_wing_5sect_json : pyval Z :=
  VDict [
    ("airfoil_DB", VStr "../AirfoilDatabase");
    ("run", VDict [
        ("stl", VStr "");
        ("forces", VStr "")]);
    ("solver", VDict [
        ("type", VStr "linear");
        ("convergence", VNum (ndec (1) 10));
        ("relaxation", VNum (ndec (9) 1))]);
    ("plane", VDict [
        ("name", VStr "myairplane");
        ("CGx", VNum (ndec (-4) 1));
        ("CGy", VNum (ndec (0) 0));
        ("CGz", VNum (ndec (0) 0))]);
    ("reference", VDict [
        ("area", VNum (ndec (8) 0));
        ("longitudinal_length", VNum (ndec (1) 0));
        ("lateral_length", VNum (ndec (8) 0))]);
    ("condition", VDict [
        ("alpha", VNum (ndec (4) 0));
        ("beta", VNum (ndec (0) 0));
        ("ground", VNum (ndec (0) 0))]);
    ("controls", VDict [
        ("aileron", VDict [
            ("is_symmetric", VInt (0));
            ("deflection", VNum (ndec (0) 0))]);
        ("elevator", VDict [
            ("is_symmetric", VInt (1));
            ("deflection", VNum (ndec (0) 0))])]);
    ("wings", VDict [
        ("wing_1", VDict [
            ("ID", VInt (1));
            ("side", VStr "both");
            ("connect", VDict [
                ("ID", VInt (0));
                ("location", VStr "root");
                ("dx", VNum (ndec (0) 0));
                ("dy", VNum (ndec (0) 0));
                ("dz", VNum (ndec (0) 0));
                ("yoffset", VNum (ndec (0) 0))]);
            ("span", VNum (ndec (4) 0));
            ("sweep", VNum (ndec (0) 0));
            ("dihedral", VNum (ndec (0) 0));
            ("mounting_angle", VNum (ndec (0) 0));
            ("washout", VNum (ndec (0) 0));
            ("root_chord", VNum (ndec (1) 0));
            ("tip_chord", VNum (ndec (1) 0));
            ("airfoils", VDict [
                ("NACA_2410", VDict [
                    ("properties", VDict [
                        ("type", VStr "linear");
                        ("alpha_L0", VNum (ndec (-368) 4));
                        ("CL_alpha", VNum (ndec (61976) 4));
                        ("Cm_L0", VNum (ndec (-525) 4));
                        ("Cm_alpha", VNum (ndec (326) 4));
                        ("CD0", VNum (ndec (569) 5));
                        ("CD0_L", VNum (ndec (-45) 4));
                        ("CD0_L2", VNum (ndec (104) 4));
                        ("CL_max", VNum (ndec (14) 1));
                        ("Comments", VStr "All angles in radians and slopes in 1/radians")])])]);
            ("grid", VInt (5));
            ("control", VDict [
                ("span_root", VNum (ndec (7) 1));
                ("span_tip", VNum (ndec (9) 1));
                ("chord_root", VNum (ndec (25) 2));
                ("chord_tip", VNum (ndec (25) 2));
                ("is_sealed", VInt (1));
                ("mix", VDict [
                    ("aileron", VNum (ndec (1) 0));
                    ("elevator", VNum (ndec (1) 0))])])])])].

(** test/geometry/testairplanes/aerodynamic_twist_wing_5sect.json *)
Definition aerodynamic_twist_wing_5sect_json : pyval Z :=
  VDict [
    ("airfoil_DB", VStr "../AirfoilDatabase");
    ("run", VDict [
        ("forces", VStr "")]);
    ("solver", VDict [
        ("type", VStr "linear");
        ("convergence", VNum (ndec (1) 10));
        ("relaxation", VNum (ndec (9) 1))]);
    ("plane", VDict [
        ("name", VStr "myairplane");
        ("CGx", VNum (ndec (-4) 1));
        ("CGy", VNum (ndec (0) 0));
        ("CGz", VNum (ndec (0) 0))]);
    ("reference", VDict [
        ("area", VNum (ndec (8) 0));
        ("longitudinal_length", VNum (ndec (1) 0));
        ("lateral_length", VNum (ndec (8) 0))]);
    ("condition", VDict [
        ("alpha", VNum (ndec (0) 0));
        ("beta", VNum (ndec (0) 0));
        ("ground", VNum (ndec (0) 0))]);
    ("controls", VDict [
        ("aileron", VDict [
            ("is_symmetric", VInt (0));
            ("deflection", VNum (ndec (0) 0))]);
        ("elevator", VDict [
            ("is_symmetric", VInt (1));
            ("deflection", VNum (ndec (0) 0))])]);
    ("wings", VDict [
        ("wing_1", VDict [
            ("ID", VInt (1));
            ("side", VStr "both");
            ("connect", VDict [
                ("ID", VInt (0));
                ("location", VStr "root");
                ("dx", VNum (ndec (0) 0));
                ("dy", VNum (ndec (0) 0));
                ("dz", VNum (ndec (0) 0));
                ("yoffset", VNum (ndec (0) 0))]);
            ("span", VNum (ndec (4) 0));
            ("sweep", VNum (ndec (0) 0));
            ("dihedral", VNum (ndec (0) 0));
            ("mounting_angle", VNum (ndec (0) 0));
            ("washout", VNum (ndec (0) 0));
            ("root_chord", VNum (ndec (1) 0));
            ("tip_chord", VNum (ndec (1) 0));
            ("airfoils", VDict [
                ("NACA_2410", VDict [
                    ("properties", VDict [
                        ("type", VStr "linear");
                        ("alpha_L0", VNum (ndec (-368) 4));
                        ("CL_alpha", VNum (ndec (61976) 4));
                        ("Cm_L0", VNum (ndec (-525) 4));
                        ("Cm_alpha", VNum (ndec (326) 4));
                        ("CD0", VNum (ndec (569) 5));
                        ("CD0_L", VNum (ndec (-45) 4));
                        ("CD0_L2", VNum (ndec (104) 4));
                        ("CL_max", VNum (ndec (14) 1));
                        ("Comments", VStr "All angles in radians and slopes in 1/radians")])]);
                ("NACA_0010", VDict [
                    ("properties", VDict [
                        ("type", VStr "linear");
                        ("alpha_L0", VNum (ndec (0) 0));
                        ("CL_alpha", VNum (ndec (62832) 4));
                        ("Cm_L0", VNum (ndec (0) 0));
                        ("Cm_alpha", VNum (ndec (0) 0));
                        ("CD0", VNum (ndec (569) 5));
                        ("CD0_L", VNum (ndec (-45) 4));
                        ("CD0_L2", VNum (ndec (104) 4));
                        ("CL_max", VNum (ndec (14) 1));
                        ("Comments", VStr "All angles in radians and slopes in 1/radians")])])]);
            ("grid", VInt (5));
            ("control", VDict [
                ("span_root", VNum (ndec (7) 1));
                ("span_tip", VNum (ndec (9) 1));
                ("chord_root", VNum (ndec (25) 2));
                ("chord_tip", VNum (ndec (25) 2));
                ("is_sealed", VInt (1));
                ("mix", VDict [
                    ("aileron", VNum (ndec (1) 0));
                    ("elevator", VNum (ndec (1) 0))])])])])].

(** test/geometry/testairplanes/yoffset_wing_5sect.json *)
Definition yoffset_wing_5sect_json : pyval Z :=
  VDict [
    ("airfoil_DB", VStr "../AirfoilDatabase");
    ("run", VDict [
        ("stl", VStr "");
        ("forces", VStr "")]);
    ("solver", VDict [
        ("type", VStr "linear");
        ("convergence", VNum (ndec (1) 10));
        ("relaxation", VNum (ndec (9) 1))]);
    ("plane", VDict [
        ("name", VStr "myairplane");
        ("CGx", VNum (ndec (-4) 1));
        ("CGy", VNum (ndec (0) 0));
        ("CGz", VNum (ndec (0) 0))]);
    ("reference", VDict [
        ("area", VNum (ndec (8) 0));
        ("longitudinal_length", VNum (ndec (1) 0));
        ("lateral_length", VNum (ndec (8) 0))]);
    ("condition", VDict [
        ("alpha", VNum (ndec (0) 0));
        ("beta", VNum (ndec (0) 0));
        ("ground", VNum (ndec (0) 0))]);
    ("controls", VDict [
        ("aileron", VDict [
            ("is_symmetric", VInt (0));
            ("deflection", VNum (ndec (0) 0))]);
        ("elevator", VDict [
            ("is_symmetric", VInt (1));
            ("deflection", VNum (ndec (0) 0))])]);
    ("wings", VDict [
        ("wing_1", VDict [
            ("ID", VInt (1));
            ("side", VStr "both");
            ("connect", VDict [
                ("ID", VInt (0));
                ("location", VStr "root");
                ("dx", VNum (ndec (0) 0));
                ("dy", VNum (ndec (0) 0));
                ("dz", VNum (ndec (0) 0));
                ("yoffset", VNum (ndec (5) 1))]);
            ("span", VNum (ndec (4) 0));
            ("sweep", VNum (ndec (0) 0));
            ("dihedral", VNum (ndec (0) 0));
            ("mounting_angle", VNum (ndec (0) 0));
            ("washout", VNum (ndec (0) 0));
            ("root_chord", VNum (ndec (1) 0));
            ("tip_chord", VNum (ndec (1) 0));
            ("airfoils", VDict [
                ("NACA_2410", VDict [
                    ("properties", VDict [
                        ("type", VStr "linear");
                        ("alpha_L0", VNum (ndec (-368) 4));
                        ("CL_alpha", VNum (ndec (61976) 4));
                        ("Cm_L0", VNum (ndec (-525) 4));
                        ("Cm_alpha", VNum (ndec (326) 4));
                        ("CD0", VNum (ndec (569) 5));
                        ("CD0_L", VNum (ndec (-45) 4));
                        ("CD0_L2", VNum (ndec (104) 4));
                        ("CL_max", VNum (ndec (14) 1));
                        ("Comments", VStr "All angles in radians and slopes in 1/radians")])])]);
            ("grid", VInt (5));
            ("control", VDict [
                ("span_root", VNum (ndec (7) 1));
                ("span_tip", VNum (ndec (9) 1));
                ("chord_root", VNum (ndec (25) 2));
                ("chord_tip", VNum (ndec (25) 2));
                ("is_sealed", VInt (1));
                ("mix", VDict [
                    ("aileron", VNum (ndec (1) 0));
                    ("elevator", VNum (ndec (1) 0))])])])])].

(** test/geometry/testairplanes/tapered_control_5sect.json *)
Definition tapered_control_5sect_json : pyval Z :=
  VDict [
    ("airfoil_DB", VStr "../AirfoilDatabase");
    ("run", VDict [
        ("stl", VStr "");
        ("forces", VStr "")]);
    ("solver", VDict [
        ("type", VStr "linear");
        ("convergence", VNum (ndec (1) 10));
        ("relaxation", VNum (ndec (9) 1))]);
    ("plane", VDict [
        ("name", VStr "myairplane");
        ("CGx", VNum (ndec (-4) 1));
        ("CGy", VNum (ndec (0) 0));
        ("CGz", VNum (ndec (0) 0))]);
    ("reference", VDict [
        ("area", VNum (ndec (8) 0));
        ("longitudinal_length", VNum (ndec (1) 0));
        ("lateral_length", VNum (ndec (8) 0))]);
    ("condition", VDict [
        ("alpha", VNum (ndec (0) 0));
        ("beta", VNum (ndec (0) 0));
        ("ground", VNum (ndec (0) 0))]);
    ("controls", VDict [
        ("aileron", VDict [
            ("is_symmetric", VInt (0));
            ("deflection", VNum (ndec (5) 0))]);
        ("elevator", VDict [
            ("is_symmetric", VInt (1));
            ("deflection", VNum (ndec (0) 0))])]);
    ("wings", VDict [
        ("wing_1", VDict [
            ("ID", VInt (1));
            ("side", VStr "both");
            ("connect", VDict [
                ("ID", VInt (0));
                ("location", VStr "root");
                ("dx", VNum (ndec (0) 0));
                ("dy", VNum (ndec (0) 0));
                ("dz", VNum (ndec (0) 0));
                ("yoffset", VNum (ndec (0) 0))]);
            ("span", VNum (ndec (4) 0));
            ("sweep", VNum (ndec (0) 0));
            ("dihedral", VNum (ndec (0) 0));
            ("mounting_angle", VNum (ndec (0) 0));
            ("washout", VNum (ndec (0) 0));
            ("root_chord", VNum (ndec (1) 0));
            ("tip_chord", VNum (ndec (1) 0));
            ("airfoils", VDict [
                ("NACA_2410", VDict [
                    ("properties", VDict [
                        ("type", VStr "linear");
                        ("alpha_L0", VNum (ndec (-368) 4));
                        ("CL_alpha", VNum (ndec (61976) 4));
                        ("Cm_L0", VNum (ndec (-525) 4));
                        ("Cm_alpha", VNum (ndec (326) 4));
                        ("CD0", VNum (ndec (569) 5));
                        ("CD0_L", VNum (ndec (-45) 4));
                        ("CD0_L2", VNum (ndec (104) 4));
                        ("CL_max", VNum (ndec (14) 1));
                        ("Comments", VStr "All angles in radians and slopes in 1/radians")])])]);
            ("grid", VInt (5));
            ("control", VDict [
                ("span_root", VNum (ndec (2) 1));
                ("span_tip", VNum (ndec (9) 1));
                ("chord_root", VNum (ndec (3) 1));
                ("chord_tip", VNum (ndec (2) 1));
                ("is_sealed", VInt (1));
                ("mix", VDict [
                    ("aileron", VNum (ndec (1) 0));
                    ("elevator", VNum (ndec (1) 0))])])])])].

(** test/geometry/testairplanes/dihedral_sweep_wing.json *)
Definition dihedral_sweep_wing_json : pyval Z :=
  VDict [
    ("airfoil_DB", VStr "../AirfoilDatabase");
    ("run", VDict [
        ("stl", VStr "");
        ("forces", VStr "")]);
    ("solver", VDict [
        ("type", VStr "linear");
        ("convergence", VNum (ndec (1) 10));
        ("relaxation", VNum (ndec (9) 1))]);
    ("plane", VDict [
        ("name", VStr "myairplane");
        ("CGx", VNum (ndec (-4) 1));
        ("CGy", VNum (ndec (0) 0));
        ("CGz", VNum (ndec (0) 0))]);
    ("reference", VDict [
        ("area", VNum (ndec (6) 0));
        ("longitudinal_length", VNum (ndec (1) 0));
        ("lateral_length", VNum (ndec (8) 0))]);
    ("condition", VDict [
        ("alpha", VNum (ndec (4) 0));
        ("beta", VNum (ndec (0) 0));
        ("ground", VNum (ndec (0) 0))]);
    ("controls", VDict [
        ("aileron", VDict [
            ("is_symmetric", VInt (0));
            ("deflection", VNum (ndec (10) 0))]);
        ("elevator", VDict [
            ("is_symmetric", VInt (1));
            ("deflection", VNum (ndec (0) 0))])]);
    ("wings", VDict [
        ("wing_1", VDict [
            ("ID", VInt (1));
            ("side", VStr "both");
            ("connect", VDict [
                ("ID", VInt (0));
                ("location", VStr "root");
                ("dx", VNum (ndec (0) 0));
                ("dy", VNum (ndec (0) 0));
                ("dz", VNum (ndec (0) 0));
                ("yoffset", VNum (ndec (0) 0))]);
            ("span", VNum (ndec (4) 0));
            ("sweep", VNum (ndec (15) 0));
            ("dihedral", VNum (ndec (3) 0));
            ("mounting_angle", VNum (ndec (0) 0));
            ("washout", VNum (ndec (0) 0));
            ("root_chord", VNum (ndec (1) 0));
            ("tip_chord", VNum (ndec (1) 0));
            ("airfoils", VDict [
                ("NACA_0010", VDict [
                    ("properties", VDict [
                        ("type", VStr "linear");
                        ("alpha_L0", VNum (ndec (0) 0));
                        ("CL_alpha", VNum (ndec (62831853071796) 13));
                        ("Cm_L0", VNum (ndec (0) 0));
                        ("Cm_alpha", VNum (ndec (0) 0));
                        ("CD0", VNum (ndec (569) 5));
                        ("CD0_L", VNum (ndec (-45) 4));
                        ("CD0_L2", VNum (ndec (104) 4));
                        ("CL_max", VNum (ndec (14) 1));
                        ("Comments", VStr "All angles in radians and slopes in 1/radians")])])]);
            ("grid", VInt (5));
            ("control", VDict [
                ("span_root", VNum (ndec (7) 1));
                ("span_tip", VNum (ndec (9) 1));
                ("chord_root", VNum (ndec (25) 2));
                ("chord_tip", VNum (ndec (25) 2));
                ("is_sealed", VInt (1));
                ("mix", VDict [
                    ("aileron", VNum (ndec (1) 0));
                    ("elevator", VNum (ndec (1) 0))])])])])].

(** test/geometry/testairplanes/multisegment_wing.json *)
Definition multisegment_wing_json : pyval Z :=
  VDict [
    ("tag", VDict [
        ("UUID", VStr "BFD1A067-0823-4DA4-8A2E-4EA584B849F2");
        ("date", VStr "2017-07-18T17:53:23.094Z");
        ("version", VStr "MachUp 4.0")]);
    ("run", VDict [
        ("forces", VStr "")]);
    ("solver", VDict [
        ("type", VStr "linear");
        ("convergence", VNum (ndec (1) 6));
        ("relaxation", VNum (ndec (9) 1))]);
    ("plane", VDict [
        ("name", VStr "MyAirplane");
        ("CGx", VInt (0));
        ("CGy", VInt (0));
        ("CGz", VInt (0))]);
    ("reference", VDict [
        ("area", VInt (0));
        ("longitudinal_length", VInt (0));
        ("lateral_length", VInt (0))]);
    ("condition", VDict [
        ("alpha", VInt (1));
        ("beta", VInt (0))]);
    ("controls", VDict [
        ("elevator", VDict [
            ("is_symmetric", VInt (1));
            ("deflection", VInt (0))]);
        ("rudder", VDict [
            ("is_symmetric", VInt (0));
            ("deflection", VInt (0))]);
        ("aileron", VDict [
            ("is_symmetric", VInt (0));
            ("deflection", VInt (0))]);
        ("flap", VDict [
            ("is_symmetric", VInt (1));
            ("deflection", VInt (0))])]);
    ("airfoil_DB", VStr ".");
    ("wings", VDict [
        ("inner", VDict [
            ("name", VStr "Wing_1");
            ("ID", VInt (1));
            ("is_main", VInt (1));
            ("side", VStr "both");
            ("connect", VDict [
                ("ID", VInt (0));
                ("location", VStr "tip");
                ("dx", VNum (ndec (5) 1));
                ("dy", VInt (0));
                ("dz", VNum (ndec (-1) 1));
                ("yoffset", VInt (0))]);
            ("span", VInt (4));
            ("sweep", VInt (5));
            ("dihedral", VInt (10));
            ("mounting_angle", VInt (0));
            ("washout", VInt (0));
            ("root_chord", VInt (1));
            ("tip_chord", VInt (1));
            ("airfoils", VDict [
                ("af1", VDict [
                    ("properties", VDict [
                        ("type", VStr "linear");
                        ("alpha_L0", VNum (ndec (-36899751) 9));
                        ("CL_alpha", VNum (ndec (6283185307) 9));
                        ("Cm_L0", VNum (ndec (-527) 4));
                        ("Cm_alpha", VNum (ndec (-8) 2));
                        ("CD0", VNum (ndec (55) 4));
                        ("CD0_L", VNum (ndec (-45) 4));
                        ("CD0_L2", VNum (ndec (1) 2));
                        ("CL_max", VNum (ndec (14) 1))])]);
                ("af2", VDict [
                    ("properties", VDict [
                        ("type", VStr "linear");
                        ("alpha_L0", VNum (ndec (-36899751) 9));
                        ("CL_alpha", VNum (ndec (6283185307) 9));
                        ("Cm_L0", VNum (ndec (-527) 4));
                        ("Cm_alpha", VNum (ndec (-8) 2));
                        ("CD0", VNum (ndec (55) 4));
                        ("CD0_L", VNum (ndec (-45) 4));
                        ("CD0_L2", VNum (ndec (1) 2));
                        ("CL_max", VNum (ndec (14) 1))])])]);
            ("grid", VInt (40));
            ("control", VDict [
                ("has_control_surface", VBool true);
                ("span_root", VNum (ndec (2) 1));
                ("span_tip", VNum (ndec (8) 1));
                ("chord_root", VNum (ndec (2) 1));
                ("chord_tip", VNum (ndec (2) 1));
                ("is_sealed", VInt (1));
                ("mix", VDict [
                    ("elevator", VInt (1));
                    ("rudder", VInt (0));
                    ("aileron", VInt (0));
                    ("flap", VInt (0))])]);
            ("sameAsRoot", VBool true)]);
        ("outer", VDict [
            ("name", VStr "Wing_2");
            ("ID", VInt (2));
            ("is_main", VInt (1));
            ("side", VStr "both");
            ("connect", VDict [
                ("ID", VInt (1));
                ("location", VStr "tip");
                ("dx", VInt (0));
                ("dy", VInt (0));
                ("dz", VInt (0));
                ("yoffset", VInt (0))]);
            ("span", VInt (4));
            ("sweep", VInt (5));
            ("dihedral", VInt (0));
            ("mounting_angle", VInt (0));
            ("washout", VInt (0));
            ("root_chord", VInt (1));
            ("tip_chord", VInt (1));
            ("airfoils", VDict [
                ("af1", VDict [
                    ("properties", VDict [
                        ("type", VStr "linear");
                        ("alpha_L0", VNum (ndec (-36899751) 9));
                        ("CL_alpha", VNum (ndec (6283185307) 9));
                        ("Cm_L0", VNum (ndec (-527) 4));
                        ("Cm_alpha", VNum (ndec (-8) 2));
                        ("CD0", VNum (ndec (55) 4));
                        ("CD0_L", VNum (ndec (-45) 4));
                        ("CD0_L2", VNum (ndec (1) 2));
                        ("CL_max", VNum (ndec (14) 1))])]);
                ("af2", VDict [
                    ("properties", VDict [
                        ("type", VStr "linear");
                        ("alpha_L0", VNum (ndec (-36899751) 9));
                        ("CL_alpha", VNum (ndec (6283185307) 9));
                        ("Cm_L0", VNum (ndec (-527) 4));
                        ("Cm_alpha", VNum (ndec (-8) 2));
                        ("CD0", VNum (ndec (55) 4));
                        ("CD0_L", VNum (ndec (-45) 4));
                        ("CD0_L2", VNum (ndec (1) 2));
                        ("CL_max", VNum (ndec (14) 1))])])]);
            ("grid", VInt (40));
            ("control", VDict [
                ("has_control_surface", VBool true);
                ("span_root", VNum (ndec (2) 1));
                ("span_tip", VNum (ndec (8) 1));
                ("chord_root", VNum (ndec (2) 1));
                ("chord_tip", VNum (ndec (2) 1));
                ("is_sealed", VInt (1));
                ("mix", VDict [
                    ("elevator", VInt (1));
                    ("rudder", VInt (0));
                    ("aileron", VInt (0));
                    ("flap", VInt (0))])]);
            ("sameAsRoot", VBool true)])])].

(** test/geometry/testairplanes/no_control_surface.json *)
Definition no_control_surface_json : pyval Z :=
  VDict [
    ("tag", VDict [
        ("UUID", VStr "16698254-2160-4949-BC5E-203C845F3449");
        ("date", VStr "2017-08-11T16:35:26.458Z");
        ("version", VStr "MachUp 4.0")]);
    ("run", VDict [
        ("forces", VStr "")]);
    ("solver", VDict [
        ("type", VStr "linear");
        ("convergence", VNum (ndec (1) 6));
        ("relaxation", VNum (ndec (9) 1))]);
    ("plane", VDict [
        ("name", VStr "MyAirplane");
        ("CGx", VInt (0));
        ("CGy", VInt (0));
        ("CGz", VInt (0))]);
    ("reference", VDict [
        ("area", VInt (0));
        ("longitudinal_length", VInt (0));
        ("lateral_length", VInt (0))]);
    ("condition", VDict [
        ("alpha", VInt (1));
        ("beta", VInt (0))]);
    ("controls", VDict [
        ("elevator", VDict [
            ("is_symmetric", VInt (1));
            ("deflection", VInt (0))]);
        ("rudder", VDict [
            ("is_symmetric", VInt (0));
            ("deflection", VInt (0))]);
        ("aileron", VDict [
            ("is_symmetric", VInt (0));
            ("deflection", VInt (0))]);
        ("flap", VDict [
            ("is_symmetric", VInt (1));
            ("deflection", VInt (0))])]);
    ("airfoil_DB", VStr ".");
    ("wings", VDict [
        ("Wing_1", VDict [
            ("name", VStr "Wing_1");
            ("ID", VInt (1));
            ("is_main", VInt (1));
            ("side", VStr "both");
            ("connect", VDict [
                ("ID", VInt (0));
                ("location", VStr "tip");
                ("dx", VInt (0));
                ("dy", VInt (0));
                ("dz", VInt (0));
                ("yoffset", VInt (0))]);
            ("span", VInt (4));
            ("sweep", VInt (0));
            ("dihedral", VInt (0));
            ("mounting_angle", VInt (0));
            ("washout", VInt (0));
            ("root_chord", VInt (1));
            ("tip_chord", VInt (1));
            ("airfoils", VDict [
                ("af1", VDict [
                    ("properties", VDict [
                        ("type", VStr "linear");
                        ("alpha_L0", VNum (ndec (-36899751) 9));
                        ("CL_alpha", VNum (ndec (6283185307) 9));
                        ("Cm_L0", VNum (ndec (-527) 4));
                        ("Cm_alpha", VNum (ndec (-8) 2));
                        ("CD0", VNum (ndec (55) 4));
                        ("CD0_L", VNum (ndec (-45) 4));
                        ("CD0_L2", VNum (ndec (1) 2));
                        ("CL_max", VNum (ndec (14) 1))])]);
                ("af2", VDict [
                    ("properties", VDict [
                        ("type", VStr "linear");
                        ("alpha_L0", VNum (ndec (-36899751) 9));
                        ("CL_alpha", VNum (ndec (6283185307) 9));
                        ("Cm_L0", VNum (ndec (-527) 4));
                        ("Cm_alpha", VNum (ndec (-8) 2));
                        ("CD0", VNum (ndec (55) 4));
                        ("CD0_L", VNum (ndec (-45) 4));
                        ("CD0_L2", VNum (ndec (1) 2));
                        ("CL_max", VNum (ndec (14) 1))])])]);
            ("grid", VInt (40));
            ("control", VDict [
]);
            ("sameAsRoot", VBool true)])])].

(** test/geometry/testairplanes/single_wing.json *)
Definition single_wing_json : pyval Z :=
  VDict [
    ("airfoil_DB", VStr "../AirfoilDatabase");
    ("run", VDict [
        ("stl", VStr "");
        ("forces", VStr "")]);
    ("solver", VDict [
        ("type", VStr "linear");
        ("convergence", VNum (ndec (1) 10));
        ("relaxation", VNum (ndec (9) 1))]);
    ("plane", VDict [
        ("name", VStr "myairplane");
        ("CGx", VNum (ndec (-4) 1));
        ("CGy", VNum (ndec (0) 0));
        ("CGz", VNum (ndec (0) 0))]);
    ("reference", VDict [
        ("area", VNum (ndec (8) 0));
        ("longitudinal_length", VNum (ndec (1) 0));
        ("lateral_length", VNum (ndec (8) 0))]);
    ("condition", VDict [
        ("alpha", VNum (ndec (0) 0));
        ("beta", VNum (ndec (0) 0));
        ("ground", VNum (ndec (0) 0))]);
    ("controls", VDict [
        ("aileron", VDict [
            ("is_symmetric", VInt (0));
            ("deflection", VNum (ndec (0) 0))]);
        ("elevator", VDict [
            ("is_symmetric", VInt (1));
            ("deflection", VNum (ndec (0) 0))])]);
    ("wings", VDict [
        ("wing_1", VDict [
            ("ID", VInt (1));
            ("side", VStr "both");
            ("connect", VDict [
                ("ID", VInt (0));
                ("location", VStr "root");
                ("dx", VNum (ndec (0) 0));
                ("dy", VNum (ndec (0) 0));
                ("dz", VNum (ndec (0) 0));
                ("yoffset", VNum (ndec (0) 0))]);
            ("span", VNum (ndec (4) 0));
            ("sweep", VNum (ndec (0) 0));
            ("dihedral", VNum (ndec (0) 0));
            ("mounting_angle", VNum (ndec (0) 0));
            ("washout", VNum (ndec (10) 0));
            ("root_chord", VNum (ndec (1) 0));
            ("tip_chord", VNum (ndec (1) 0));
            ("airfoils", VDict [
                ("NACA_2410", VDict [
                    ("properties", VDict [
                        ("type", VStr "linear");
                        ("alpha_L0", VNum (ndec (-368) 4));
                        ("CL_alpha", VNum (ndec (61976) 4));
                        ("Cm_L0", VNum (ndec (-525) 4));
                        ("Cm_alpha", VNum (ndec (326) 4));
                        ("CD0", VNum (ndec (569) 5));
                        ("CD0_L", VNum (ndec (-45) 4));
                        ("CD0_L2", VNum (ndec (104) 4));
                        ("CL_max", VNum (ndec (14) 1));
                        ("Comments", VStr "All angles in radians and slopes in 1/radians")])])]);
            ("grid", VInt (40));
            ("control", VDict [
                ("span_root", VNum (ndec (7) 1));
                ("span_tip", VNum (ndec (9) 1));
                ("chord_root", VNum (ndec (25) 2));
                ("chord_tip", VNum (ndec (25) 2));
                ("is_sealed", VInt (1));
                ("mix", VDict [
                    ("aileron", VNum (ndec (1) 0));
                    ("elevator", VNum (ndec (1) 0))])])])])].

(** test/use_cases/u1_from_file/use_case_1.json *)
Definition use_case_1_json : pyval Z :=
  VDict [
    ("tag", VDict [
        ("UUID", VStr "32204E10-3DC0-4215-B9BE-84376A57BA1E");
        ("date", VStr "2017-07-31T17:03:52.736Z");
        ("version", VStr "MachUp 4.0")]);
    ("run", VDict [
        ("derivatives", VStr "")]);
    ("solver", VDict [
        ("type", VStr "linear");
        ("convergence", VNum (ndec (1) 6));
        ("relaxation", VNum (ndec (9) 1))]);
    ("plane", VDict [
        ("name", VStr "MyAirplane");
        ("CGx", VNum (ndec (-29) 2));
        ("CGy", VInt (0));
        ("CGz", VNum (ndec (25) 2))]);
    ("reference", VDict [
        ("area", VInt (6));
        ("longitudinal_length", VNum (ndec (75) 2));
        ("lateral_length", VInt (8))]);
    ("condition", VDict [
        ("alpha", VNum (ndec (535544439222218) 15));
        ("beta", VInt (0))]);
    ("controls", VDict [
        ("elevator", VDict [
            ("is_symmetric", VInt (1));
            ("deflection", VNum (ndec (140350848322254) 15))]);
        ("rudder", VDict [
            ("is_symmetric", VInt (0));
            ("deflection", VInt (0))]);
        ("aileron", VDict [
            ("is_symmetric", VInt (0));
            ("deflection", VInt (0))]);
        ("flap", VDict [
            ("is_symmetric", VInt (1));
            ("deflection", VInt (0))])]);
    ("airfoil_DB", VStr ".");
    ("wings", VDict [
        ("mainwing", VDict [
            ("name", VStr "mainwing");
            ("ID", VInt (1));
            ("is_main", VInt (1));
            ("side", VStr "both");
            ("connect", VDict [
                ("ID", VInt (0));
                ("location", VStr "tip");
                ("dx", VInt (0));
                ("dy", VInt (0));
                ("dz", VInt (0));
                ("yoffset", VInt (0))]);
            ("span", VInt (4));
            ("sweep", VInt (0));
            ("dihedral", VInt (3));
            ("mounting_angle", VInt (0));
            ("washout", VInt (0));
            ("root_chord", VInt (1));
            ("tip_chord", VNum (ndec (5) 1));
            ("airfoils", VDict [
                ("af1", VDict [
                    ("properties", VDict [
                        ("type", VStr "linear");
                        ("alpha_L0", VNum (ndec (-36899751) 9));
                        ("CL_alpha", VNum (ndec (6283185307) 9));
                        ("Cm_L0", VNum (ndec (-527) 4));
                        ("Cm_alpha", VNum (ndec (-8) 2));
                        ("CD0", VNum (ndec (55) 4));
                        ("CD0_L", VNum (ndec (-45) 4));
                        ("CD0_L2", VNum (ndec (1) 2));
                        ("CL_max", VNum (ndec (14) 1))])]);
                ("af2", VDict [
                    ("properties", VDict [
                        ("type", VStr "linear");
                        ("alpha_L0", VNum (ndec (-36899751) 9));
                        ("CL_alpha", VNum (ndec (6283185307) 9));
                        ("Cm_L0", VNum (ndec (-527) 4));
                        ("Cm_alpha", VNum (ndec (-8) 2));
                        ("CD0", VNum (ndec (55) 4));
                        ("CD0_L", VNum (ndec (-45) 4));
                        ("CD0_L2", VNum (ndec (1) 2));
                        ("CL_max", VNum (ndec (14) 1))])])]);
            ("grid", VInt (40));
            ("control", VDict [
                ("has_control_surface", VBool true);
                ("span_root", VNum (ndec (4) 1));
                ("span_tip", VNum (ndec (9) 1));
                ("chord_root", VNum (ndec (25) 2));
                ("chord_tip", VNum (ndec (25) 2));
                ("is_sealed", VInt (1));
                ("mix", VDict [
                    ("elevator", VInt (0));
                    ("rudder", VInt (0));
                    ("aileron", VInt (1));
                    ("flap", VInt (0))])]);
            ("sameAsRoot", VBool true)]);
        ("horizontal_tail", VDict [
            ("name", VStr "horizontal_tail");
            ("ID", VInt (2));
            ("is_main", VInt (0));
            ("side", VStr "both");
            ("connect", VDict [
                ("ID", VInt (0));
                ("location", VStr "tip");
                ("dx", VInt (-4));
                ("dy", VInt (0));
                ("dz", VInt (0));
                ("yoffset", VInt (0))]);
            ("span", VInt (1));
            ("sweep", VInt (20));
            ("dihedral", VInt (0));
            ("mounting_angle", VInt (1));
            ("washout", VInt (0));
            ("root_chord", VInt (1));
            ("tip_chord", VNum (ndec (5) 1));
            ("airfoils", VDict [
                ("af1", VDict [
                    ("properties", VDict [
                        ("type", VStr "linear");
                        ("alpha_L0", VInt (0));
                        ("CL_alpha", VNum (ndec (6283185307) 9));
                        ("Cm_L0", VInt (0));
                        ("Cm_alpha", VInt (0));
                        ("CD0", VNum (ndec (55) 4));
                        ("CD0_L", VNum (ndec (-45) 4));
                        ("CD0_L2", VNum (ndec (1) 2));
                        ("CL_max", VInt (1))])]);
                ("af2", VDict [
                    ("properties", VDict [
                        ("type", VStr "linear");
                        ("alpha_L0", VInt (0));
                        ("CL_alpha", VNum (ndec (6283185307) 9));
                        ("Cm_L0", VInt (0));
                        ("Cm_alpha", VInt (0));
                        ("CD0", VNum (ndec (55) 4));
                        ("CD0_L", VNum (ndec (-45) 4));
                        ("CD0_L2", VNum (ndec (1) 2));
                        ("CL_max", VInt (1))])])]);
            ("grid", VInt (40));
            ("control", VDict [
                ("has_control_surface", VBool true);
                ("span_root", VInt (0));
                ("span_tip", VInt (1));
                ("chord_root", VNum (ndec (25) 2));
                ("chord_tip", VNum (ndec (5) 1));
                ("is_sealed", VInt (1));
                ("mix", VDict [
                    ("elevator", VInt (1));
                    ("rudder", VInt (0));
                    ("aileron", VInt (0));
                    ("flap", VInt (0))])]);
            ("sameAsRoot", VBool true)]);
        ("vertical_tail", VDict [
            ("name", VStr "vertical_tail");
            ("ID", VInt (3));
            ("is_main", VInt (0));
            ("side", VStr "right");
            ("connect", VDict [
                ("ID", VInt (0));
                ("location", VStr "tip");
                ("dx", VInt (-4));
                ("dy", VInt (0));
                ("dz", VInt (0));
                ("yoffset", VInt (0))]);
            ("span", VNum (ndec (8) 1));
            ("sweep", VInt (25));
            ("dihedral", VInt (90));
            ("mounting_angle", VInt (0));
            ("washout", VInt (0));
            ("root_chord", VInt (1));
            ("tip_chord", VNum (ndec (5) 1));
            ("airfoils", VDict [
                ("af1", VDict [
                    ("properties", VDict [
                        ("type", VStr "linear");
                        ("alpha_L0", VInt (0));
                        ("CL_alpha", VNum (ndec (6283185307) 9));
                        ("Cm_L0", VInt (0));
                        ("Cm_alpha", VInt (0));
                        ("CD0", VNum (ndec (55) 4));
                        ("CD0_L", VNum (ndec (-45) 4));
                        ("CD0_L2", VNum (ndec (1) 2));
                        ("CL_max", VInt (1))])]);
                ("af2", VDict [
                    ("properties", VDict [
                        ("type", VStr "linear");
                        ("alpha_L0", VInt (0));
                        ("CL_alpha", VNum (ndec (6283185307) 9));
                        ("Cm_L0", VInt (0));
                        ("Cm_alpha", VInt (0));
                        ("CD0", VNum (ndec (55) 4));
                        ("CD0_L", VNum (ndec (-45) 4));
                        ("CD0_L2", VNum (ndec (1) 2));
                        ("CL_max", VInt (1))])])]);
            ("grid", VInt (40));
            ("control", VDict [
                ("has_control_surface", VBool true);
                ("span_root", VInt (0));
                ("span_tip", VInt (1));
                ("chord_root", VNum (ndec (25) 2));
                ("chord_tip", VNum (ndec (5) 1));
                ("is_sealed", VInt (1));
                ("mix", VDict [
                    ("elevator", VInt (0));
                    ("rudder", VInt (-1));
                    ("aileron", VInt (0));
                    ("flap", VInt (0))])]);
            ("sameAsRoot", VBool true)])])].

(** examples/Example_Traditional.json *)
Definition example_traditional_json : pyval Z :=
  VDict [
    ("plane", VDict [
        ("name", VStr "MyAirplane");
        ("CGx", VNum (ndec (-25) 2));
        ("CGy", VInt (0));
        ("CGz", VInt (0))]);
    ("reference", VDict [
        ("area", VInt (8));
        ("longitudinal_length", VNum (ndec (1) 0));
        ("lateral_length", VInt (8))]);
    ("condition", VDict [
        ("units", VStr "English")]);
    ("wings", VDict [
        ("Main_Wing", VDict [
            ("name", VStr "Main_Wing");
            ("ID", VInt (1));
            ("is_main", VInt (1));
            ("side", VStr "both");
            ("connect", VDict [
                ("ID", VInt (0));
                ("location", VStr "tip");
                ("dx", VInt (0));
                ("dy", VInt (0));
                ("dz", VInt (0));
                ("yoffset", VInt (0))]);
            ("span", VInt (4));
            ("sweep", VInt (0));
            ("dihedral", VInt (5));
            ("mounting_angle", VInt (0));
            ("washout", VInt (0));
            ("root_chord", VInt (1));
            ("tip_chord", VInt (1));
            ("airfoils", VDict [
                ("NACA2412", VDict [
                    ("properties", VDict [
                        ("type", VStr "linear");
                        ("alpha_L0", VNum (ndec (-36899751) 9));
                        ("CL_alpha", VNum (ndec (6283185307) 9));
                        ("Cm_L0", VNum (ndec (-527) 4));
                        ("Cm_alpha", VNum (ndec (-8) 2));
                        ("CD0", VNum (ndec (55) 4));
                        ("CD0_L", VNum (ndec (-45) 4));
                        ("CD0_L2", VNum (ndec (1) 2));
                        ("CL_max", VNum (ndec (14) 1))])])]);
            ("grid", VInt (40));
            ("control", VDict [
                ("has_control_surface", VBool true);
                ("span_root", VNum (ndec (5) 1));
                ("span_tip", VInt (1));
                ("chord_root", VNum (ndec (2) 1));
                ("chord_tip", VNum (ndec (2) 1));
                ("is_sealed", VInt (1));
                ("mix", VDict [
                    ("elevator", VInt (0));
                    ("rudder", VInt (0));
                    ("aileron", VInt (1));
                    ("flap", VInt (0))])]);
            ("sameAsRoot", VBool true)]);
        ("Horz_Tail", VDict [
            ("name", VStr "Horz_Tail");
            ("ID", VInt (2));
            ("is_main", VInt (0));
            ("side", VStr "both");
            ("connect", VDict [
                ("ID", VInt (0));
                ("location", VStr "tip");
                ("dx", VInt (-4));
                ("dy", VInt (0));
                ("dz", VInt (0));
                ("yoffset", VInt (0))]);
            ("span", VInt (1));
            ("sweep", VInt (0));
            ("dihedral", VInt (0));
            ("mounting_angle", VInt (-2));
            ("washout", VInt (0));
            ("root_chord", VNum (ndec (5) 1));
            ("tip_chord", VNum (ndec (5) 1));
            ("airfoils", VDict [
                ("NACA0012", VDict [
                    ("properties", VDict [
                        ("type", VStr "linear");
                        ("alpha_L0", VInt (0));
                        ("CL_alpha", VNum (ndec (6283185307) 9));
                        ("Cm_L0", VInt (0));
                        ("Cm_alpha", VNum (ndec (-8) 2));
                        ("CD0", VNum (ndec (55) 4));
                        ("CD0_L", VNum (ndec (-45) 4));
                        ("CD0_L2", VNum (ndec (1) 2));
                        ("CL_max", VNum (ndec (14) 1))])])]);
            ("grid", VInt (40));
            ("control", VDict [
                ("has_control_surface", VBool true);
                ("span_root", VInt (0));
                ("span_tip", VInt (1));
                ("chord_root", VNum (ndec (2) 1));
                ("chord_tip", VNum (ndec (2) 1));
                ("is_sealed", VInt (1));
                ("mix", VDict [
                    ("elevator", VInt (1));
                    ("rudder", VInt (0));
                    ("aileron", VInt (0));
                    ("flap", VInt (0))])]);
            ("sameAsRoot", VBool true)]);
        ("Vert_Tail", VDict [
            ("name", VStr "Vert_Tail");
            ("ID", VInt (3));
            ("is_main", VInt (0));
            ("side", VStr "right");
            ("connect", VDict [
                ("ID", VInt (0));
                ("location", VStr "tip");
                ("dx", VInt (-4));
                ("dy", VInt (0));
                ("dz", VNum (ndec (-5) 2));
                ("yoffset", VInt (0))]);
            ("span", VInt (1));
            ("sweep", VInt (0));
            ("dihedral", VInt (90));
            ("mounting_angle", VInt (0));
            ("washout", VInt (0));
            ("root_chord", VNum (ndec (5) 1));
            ("tip_chord", VNum (ndec (5) 1));
            ("airfoils", VDict [
                ("NACA0112", VDict [
                    ("properties", VDict [
                        ("type", VStr "linear");
                        ("alpha_L0", VInt (0));
                        ("CL_alpha", VNum (ndec (6283185307) 9));
                        ("Cm_L0", VInt (0));
                        ("Cm_alpha", VNum (ndec (-8) 2));
                        ("CD0", VNum (ndec (55) 4));
                        ("CD0_L", VNum (ndec (-45) 4));
                        ("CD0_L2", VNum (ndec (1) 2));
                        ("CL_max", VNum (ndec (14) 1))])])]);
            ("grid", VInt (40));
            ("control", VDict [
                ("has_control_surface", VBool true);
                ("span_root", VInt (0));
                ("span_tip", VInt (1));
                ("chord_root", VNum (ndec (2) 1));
                ("chord_tip", VNum (ndec (2) 1));
                ("is_sealed", VInt (1));
                ("mix", VDict [
                    ("elevator", VInt (0));
                    ("rudder", VInt (-1));
                    ("aileron", VInt (0));
                    ("flap", VInt (0))])]);
            ("sameAsRoot", VBool true)])]);
    ("propellers", VDict [
        ("Main_Prop", VDict [
            ("name", VStr "Main_Prop");
            ("position", VDict [
                ("dx", VInt (1));
                ("dy", VInt (0));
                ("dz", VInt (0))]);
            ("orientation", VDict [
                ("elevation_angle", VInt (0));
                ("heading_angle", VInt (0))]);
            ("radial_nodes", VInt (100));
            ("diameter", VNum (ndec (2) 0));
            ("hub_diameter", VNum (ndec (2) 1));
            ("num_of_blades", VInt (3));
            ("rotation_direction", VStr "CCW");
            ("pitch", VDict [
                ("type", VStr "ratio");
                ("value", VNum (ndec (5) 1))]);
            ("chord", VDict [
                ("type", VStr "elliptical");
                ("root", VNum (ndec (15) 2))]);
            ("airfoils", VDict [
                ("NACA2412", VDict [
                    ("properties", VDict [
                        ("type", VStr "linear");
                        ("alpha_L0", VNum (ndec (-366519143) 10));
                        ("CL_alpha", VNum (ndec (6283185307) 9));
                        ("Cm_L0", VNum (ndec (-527) 4));
                        ("Cm_alpha", VNum (ndec (-8) 2));
                        ("CD0", VNum (ndec (6) 3));
                        ("CD0_L", VNum (ndec (0) 0));
                        ("CD0_L2", VNum (ndec (1) 2));
                        ("CL_max", VNum (ndec (14) 1))])])])])])].

(** examples/Example_FlyingWing.json *)
Definition example_flyingwing_json : pyval Z :=
  VDict [
    ("plane", VDict [
        ("name", VStr "MyAirplane");
        ("CGx", VNum (ndec (-75) 2));
        ("CGy", VInt (0));
        ("CGz", VInt (0))]);
    ("reference", VDict [
        ("area", VInt (4));
        ("longitudinal_length", VNum (ndec (8) 1));
        ("lateral_length", VInt (5))]);
    ("condition", VDict [
        ("units", VStr "English")]);
    ("wings", VDict [
        ("Center", VDict [
            ("name", VStr "Center");
            ("ID", VInt (1));
            ("is_main", VInt (1));
            ("side", VStr "both");
            ("connect", VDict [
                ("ID", VInt (0));
                ("location", VStr "tip");
                ("dx", VInt (0));
                ("dy", VInt (0));
                ("dz", VInt (0));
                ("yoffset", VInt (0))]);
            ("span", VNum (ndec (5) 1));
            ("sweep", VInt (0));
            ("dihedral", VInt (0));
            ("mounting_angle", VInt (0));
            ("washout", VInt (0));
            ("root_chord", VInt (1));
            ("tip_chord", VInt (1));
            ("airfoils", VDict [
                ("NACA2412", VDict [
                    ("properties", VDict [
                        ("type", VStr "linear");
                        ("alpha_L0", VNum (ndec (-36899751) 9));
                        ("CL_alpha", VNum (ndec (6283185307) 9));
                        ("Cm_L0", VNum (ndec (-527) 4));
                        ("Cm_alpha", VNum (ndec (-8) 2));
                        ("CD0", VNum (ndec (55) 4));
                        ("CD0_L", VNum (ndec (-45) 4));
                        ("CD0_L2", VNum (ndec (1) 2));
                        ("CL_max", VNum (ndec (14) 1))])])]);
            ("grid", VInt (40));
            ("control", VDict [
]);
            ("sameAsRoot", VBool true)]);
        ("Outer_Wing", VDict [
            ("name", VStr "Outer_Wing");
            ("ID", VInt (2));
            ("is_main", VInt (1));
            ("side", VStr "both");
            ("connect", VDict [
                ("ID", VInt (1));
                ("location", VStr "tip");
                ("dx", VInt (0));
                ("dy", VInt (0));
                ("dz", VInt (0));
                ("yoffset", VInt (0))]);
            ("span", VInt (2));
            ("sweep", VInt (40));
            ("dihedral", VInt (0));
            ("mounting_angle", VInt (0));
            ("washout", VInt (0));
            ("root_chord", VInt (1));
            ("tip_chord", VNum (ndec (5) 1));
            ("airfoils", VDict [
                ("NACA2412", VDict [
                    ("properties", VDict [
                        ("type", VStr "linear");
                        ("alpha_L0", VNum (ndec (-36899751) 9));
                        ("CL_alpha", VNum (ndec (6283185307) 9));
                        ("Cm_L0", VNum (ndec (-527) 4));
                        ("Cm_alpha", VNum (ndec (-8) 2));
                        ("CD0", VNum (ndec (55) 4));
                        ("CD0_L", VNum (ndec (-45) 4));
                        ("CD0_L2", VNum (ndec (1) 2));
                        ("CL_max", VNum (ndec (14) 1))])])]);
            ("grid", VInt (40));
            ("control", VDict [
                ("has_control_surface", VBool true);
                ("span_root", VInt (0));
                ("span_tip", VInt (1));
                ("chord_root", VNum (ndec (2) 1));
                ("chord_tip", VNum (ndec (2) 1));
                ("is_sealed", VInt (1));
                ("mix", VDict [
                    ("elevator", VInt (1));
                    ("rudder", VInt (0));
                    ("aileron", VInt (1));
                    ("flap", VInt (0))])]);
            ("sameAsRoot", VBool true)]);
        ("Vert_Fin", VDict [
            ("name", VStr "Vert_Fin");
            ("ID", VInt (3));
            ("is_main", VInt (0));
            ("side", VStr "both");
            ("connect", VDict [
                ("ID", VInt (2));
                ("location", VStr "tip");
                ("dx", VInt (0));
                ("dy", VInt (0));
                ("dz", VInt (0));
                ("yoffset", VInt (0))]);
            ("span", VNum (ndec (5) 1));
            ("sweep", VInt (30));
            ("dihedral", VInt (90));
            ("mounting_angle", VInt (0));
            ("washout", VInt (0));
            ("root_chord", VNum (ndec (5) 1));
            ("tip_chord", VNum (ndec (25) 2));
            ("airfoils", VDict [
                ("NACA0112", VDict [
                    ("properties", VDict [
                        ("type", VStr "linear");
                        ("alpha_L0", VInt (0));
                        ("CL_alpha", VNum (ndec (6283185307) 9));
                        ("Cm_L0", VInt (0));
                        ("Cm_alpha", VNum (ndec (-8) 2));
                        ("CD0", VNum (ndec (55) 4));
                        ("CD0_L", VNum (ndec (-45) 4));
                        ("CD0_L2", VNum (ndec (1) 2));
                        ("CL_max", VNum (ndec (14) 1))])])]);
            ("grid", VInt (40));
            ("control", VDict [
]);
            ("sameAsRoot", VBool true)])]);
    ("propellers", VDict [
        ("Main_Prop", VDict [
            ("name", VStr "Main_Prop");
            ("position", VDict [
                ("dx", VNum (ndec (-8) 1));
                ("dy", VInt (0));
                ("dz", VInt (0))]);
            ("orientation", VDict [
                ("elevation_angle", VInt (0));
                ("heading_angle", VInt (0))]);
            ("radial_nodes", VInt (100));
            ("diameter", VNum (ndec (1) 0));
            ("hub_diameter", VNum (ndec (1) 1));
            ("num_of_blades", VInt (5));
            ("rotation_direction", VStr "CW");
            ("pitch", VDict [
                ("type", VStr "ratio");
                ("value", VNum (ndec (5) 1))]);
            ("chord", VDict [
                ("type", VStr "linear");
                ("root", VNum (ndec (75) 3));
                ("tip", VNum (ndec (4) 2))]);
            ("electric_motor", VDict [
                ("has_motor", VBool true);
                ("motor_kv", VInt (1800));
                ("gear_reduction", VInt (1));
                ("motor_resistance", VNum (ndec (422) 3));
                ("motor_no_load_current", VNum (ndec (2) 1));
                ("battery_resistance", VNum (ndec (12) 3));
                ("battery_voltage", VNum (ndec (111) 1));
                ("speed_control_resistance", VNum (ndec (14) 4))]);
            ("airfoils", VDict [
                ("NACA2412", VDict [
                    ("properties", VDict [
                        ("type", VStr "linear");
                        ("alpha_L0", VNum (ndec (-366519143) 10));
                        ("CL_alpha", VNum (ndec (6283185307) 9));
                        ("Cm_L0", VNum (ndec (-527) 4));
                        ("Cm_alpha", VNum (ndec (-8) 2));
                        ("CD0", VNum (ndec (6) 3));
                        ("CD0_L", VInt (0));
                        ("CD0_L2", VNum (ndec (1) 2));
                        ("CL_max", VNum (ndec (14) 1))])]);
                ("NACA0012", VDict [
                    ("properties", VDict [
                        ("type", VStr "linear");
                        ("alpha_L0", VInt (0));
                        ("CL_alpha", VNum (ndec (6283185307) 9));
                        ("Cm_L0", VInt (0));
                        ("Cm_alpha", VNum (ndec (-8) 2));
                        ("CD0", VNum (ndec (55) 4));
                        ("CD0_L", VNum (ndec (-45) 4));
                        ("CD0_L2", VNum (ndec (1) 2));
                        ("CL_max", VNum (ndec (14) 1))])])])])])].
