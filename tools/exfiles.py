#!/usr/bin/env python3
"""Write rocq/theories/T_Files.v: the example files of the repository's tests as Coq texts, and M_DbText.v: its database.

Line ends are translated as by open(path, 'r'); of DGStest_laptop.dat only the first 20 lines are kept."""
import os, sys
here = os.path.dirname(os.path.dirname(os.path.abspath(__file__)))
src = sys.argv[1] if len(sys.argv) > 1 else "/repo/shipgrav/tests/ex_files"
names = ["AT01_bgm.BGM", "AT01_nav.gps", "AT05_01_bgm.RGS", "DGStest_laptop.dat", "MGL2003_bgm.y2020d244", "MGL2003_nav.y2020d244",
         "MGL_dgsdata.y2025d254", "NBP_2301_nav.d013", "RR2212_bgm.txt", "RR2212_nav.txt", "SKQ_dgs_proc.20241213T0000Z",
         "SKQ_dgs_raw.20241018T2212Z", "SR2302_nav.raw", "SR2312_dgs_raw.txt", "SR2312_mru.txt", "TN400_bgm.Raw", "TN400_dgs_proc.Raw",
         "TN400_dgs_raw.Raw", "TN400_nav.Raw"]
out = ["""(** The example files of /repo/shipgrav/tests/ex_files (written by tools/exfiles.py): line ends as seen
    by [open(path, 'r')]; of DGStest_laptop.dat the first 20 lines.  Used in T_Io. *)
From Coq Require Import Ascii String List.
From Verif Require Import M_Str.
Import ListNotations.
"""]
for n in names:
    t = open(os.path.join(src, n), "rb").read().decode("ascii").replace("\r\n", "\n").replace("\r", "\n")
    if n.startswith("DGStest"):
        t = "".join(t.splitlines(True)[:20])
    pieces = " ++ [Ascii.zero] ++ ".join('lit "%s"' % p.replace('"', '""') for p in t.split("\0"))
    out.append("Definition %s : str :=\n  %s.\n" % ("f_" + n.replace(".", "_"), pieces))
open(os.path.join(here, "rocq", "theories", "T_Files.v"), "w").write("\n".join(out))

db = open(os.path.join(src, "..", "..", "database.toml"), "rb").read().decode("ascii")
assert "\r" not in db and '"' not in db
open(os.path.join(here, "rocq", "theories", "M_DbText.v"), "w").write(
    """(** The text of /repo/shipgrav/database.toml (written by tools/exfiles.py). *)
From Coq Require Import Ascii String List.
From Verif Require Import M_Str.
Definition database_toml : str :=
  lit "%s".
""" % db)
