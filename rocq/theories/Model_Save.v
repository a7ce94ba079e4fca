(* Model of save and load: Shell.save, shell.load, Shell._clear_matrices, StiffPanelBay.save,
   stiffpanelbay.load, StiffPanelBay._clear_matrices. Definitions only.
   Simplified: a file holds a complete pickle of one object or the beginning of one; pickle gives back
   the object it was given; files are not shared with other programs. *)
From Coq Require Import Reals List Arith Bool String.
From Verif Require Import Model_Types Model_Result Model_DB Model_Shell Model_Fext Model_Field Model_Bay.
Import ListNotations.
Open Scope R_scope.

(* ------------------------------------------------- files *)
Inductive content (A : Type) := Whole (a : A) | Cut.
Arguments Whole {A}. Arguments Cut {A}.
(* d_open n: open(n, 'wb') succeeds *)
Record disk (A : Type) := mkDisk { d_file : string -> option (content A); d_open : string -> bool }.
Arguments mkDisk {A}. Arguments d_file {A}. Arguments d_open {A}.
Definition put {A} (D : disk A) (n : string) (c : content A) : disk A :=
  mkDisk (fun n' => if String.eqb n' n then Some c else d_file D n') (d_open D).

(* FileNotFoundError of open(n, 'rb'); OSError of open(n, 'wb'); PicklingError or AttributeError of
   pickle.dump; EOFError or UnpicklingError of pickle.load; AttributeError of an assignment *)
Inductive io_error := NoFile | NotOpened | NotPickled | NotComplete | NoAttribute.
Inductive io (A : Type) := Done (a : A) | Fails (e : io_error).
Arguments Done {A}. Arguments Fails {A}.

(* shell.py:20-24 load, with ext = '.Shell'; stiffpanelbay.py:18-22 load, with ext = '.StiffPanelBay' *)
Definition load_file {A} (ext name : string) (D : disk A) : io A :=
  let n := match String.index 0 ext name with Some _ => name | None => (name ++ ext)%string end in
  match d_file D n with
  | None => Fails NoFile
  | Some Cut => Fails NotComplete
  | Some (Whole a) => Done a
  end.

(* `with open(name, 'wb') as f: pickle.dump(self, f)` (shell.py:1217-1218, stiffpanelbay.py:1426-1427):
   open empties the file, then the object is written. ok: every part of the object can be pickled. *)
Definition dump {A} (n : string) (ok : bool) (a : A) (D : disk A) : disk A * io unit :=
  if negb (d_open D n) then (D, Fails NotOpened)
  else if ok then (put (put D n Cut) n (Whole a), Done tt)
  else (put D n Cut, Fails NotPickled).
(* the states of the disk at the points where the program can be stopped *)
Definition dump_points {A} (n : string) (ok : bool) (a : A) (D : disk A) : list (disk A) :=
  if negb (d_open D n) then [D]
  else D :: put D n Cut :: (if ok then [put (put D n Cut) n (Whole a)] else []).

(* ------------------------------------------------- Shell *)
(* A Python function of one float. pf_named: it was defined by def at the top level of a module, so that
   pickle can store its name; false for a lambda and for a function defined inside another. *)
Record pyfun := mkPyfun { pf_value : R -> R; pf_named : bool }.
Definition values (f : option pyfun) : option (R -> R) := option_map pf_value f.
Definition is_local (f : option pyfun) : bool := match f with Some f => negb (pf_named f) | None => false end.

(* A Shell object with its name, loads and stored fields (shell.py:94-224). so_local: a function that
   pickle refuses is stored in distr_loads, distr_loads_inc, distr_pds or distr_pds_inc. *)
Record shell_object := mkObject { so_name : string; so_panel : panel; so_loads : loads; so_local : bool;
  so_fields : option (list (list R)); so_mesh : option (ndarray * ndarray) }.
Definition with_loads (o : shell_object) (e : edit) (l : bool) : shell_object * res unit :=
  let (L, r) := e (so_loads o) in
  (mkObject (so_name o) (so_panel o) L (match r with Ok _ => so_local o || l | Err _ => so_local o end)%bool (so_fields o) (so_mesh o), r).
(* shell.py:855-878 add_point_load and 927-951 add_point_pd store numbers *)
Definition object_add_point_load (o : shell_object) (x y fx fy fz : R) (cte : bool) :=
  with_loads o (add_point_load x y fx fy fz cte) false.
Definition object_add_point_pd (o : shell_object) (x y ku up kv vp kw wp : R) (cte : bool) :=
  with_loads o (add_point_pd x y ku up kv vp kw wp cte) false.
(* shell.py:881-924 add_distr_load_fixed_x, add_distr_load_fixed_y store the functions given *)
Definition object_add_distr_load_fixed_x (o : shell_object) (x : option R) (fx fy fz : option pyfun) (cte : bool) :=
  with_loads o (add_distr_load_fixed_x x (values fx) (values fy) (values fz) cte) (is_local fx || is_local fy || is_local fz).
Definition object_add_distr_load_fixed_y (o : shell_object) (y : option R) (fx fy fz : option pyfun) (cte : bool) :=
  with_loads o (add_distr_load_fixed_y y (values fx) (values fy) (values fz) cte) (is_local fx || is_local fy || is_local fz).
(* shell.py:954-1045 add_distr_pd_fixed_x, add_distr_pd_fixed_y store a lambda for each component given,
   and at least one is given *)
Definition object_add_distr_pd_fixed_x (o : shell_object) (x ku kv kw : option R) (fu fv fw : option pyfun) (cte : bool) :=
  with_loads o (add_distr_pd_fixed_x x ku kv kw (values fu) (values fv) (values fw) cte) true.
Definition object_add_distr_pd_fixed_y (o : shell_object) (y ku kv kw : option R) (fu fv fw : option pyfun) (cte : bool) :=
  with_loads o (add_distr_pd_fixed_y y ku kv kw (values fu) (values fv) (values fw) cte) true.

(* shell.py:227-238 _clear_matrices: lam, matrices, fields and plot_mesh; ABD and size stay *)
Definition clear_panel (p : panel) : panel := set_matrices (set_lam p None (pn_ABD p)) None None None None None.
Definition clear_matrices (o : shell_object) : shell_object :=
  mkObject (so_name o) (clear_panel (so_panel o)) (so_loads o) (so_local o) None None.

(* shell.py:1203-1218 save *)
Definition shell_file (o : shell_object) : string := (so_name o ++ ".Shell")%string.
Definition shell_save (o : shell_object) (D : disk shell_object) : shell_object * disk shell_object * io unit :=
  let o1 := clear_matrices o in (o1, fst (dump (shell_file o) (negb (so_local o)) o1 D), snd (dump (shell_file o) (negb (so_local o)) o1 D)).
Definition shell_save_points (o : shell_object) (D : disk shell_object) : list (disk shell_object) :=
  dump_points (shell_file o) (negb (so_local o)) (clear_matrices o) D.
Definition shell_load : string -> disk shell_object -> io shell_object := load_file ".Shell".

(* ------------------------------------------------- StiffPanelBay *)
(* a bay with its name; its own matrices and fields are not kept in the record *)
Record bay_object := mkBayObject { bo_name : string; bo_bay : bay }.
(* the names in Shell.__slots__ (shell.py:71-92): a Shell has no other attributes *)
Definition shell_slots : list string := ["a"; "x1"; "x2"; "b"; "y1"; "y2"; "r";
  "stack"; "plyt"; "laminaprop"; "rho"; "offset"; "group"; "x0"; "y0"; "row_start"; "col_start"; "row_end"; "col_end";
  "name"; "bay"; "model"; "fsdt_shear_correction"; "m"; "n"; "nx"; "ny"; "size";
  "point_loads"; "point_loads_inc"; "distr_loads"; "distr_loads_inc"; "point_pds"; "point_pds_inc"; "distr_pds"; "distr_pds_inc";
  "Nxx"; "Nyy"; "Nxy"; "Nxx_cte"; "Nyy_cte"; "Nxy_cte";
  "x1u"; "x1ur"; "x2u"; "x2ur"; "x1v"; "x1vr"; "x2v"; "x2vr"; "x1w"; "x1wr"; "x2w"; "x2wr";
  "y1u"; "y1ur"; "y2u"; "y2ur"; "y1v"; "y1vr"; "y2v"; "y2vr"; "y1w"; "y1wr"; "y2w"; "y2wr";
  "plyts"; "laminaprops"; "rhos"; "flow"; "beta"; "gamma"; "aeromu"; "rho_air"; "speed_sound"; "Mach"; "V";
  "ABD"; "force_orthotropic_laminate"; "num_eigvalues"; "num_eigvalues_print"; "out_num_cores"; "increments"; "results";
  "lam"; "matrices"; "fields"; "plot_mesh"]%string.
(* assignment to an attribute of a Shell, apart from its value *)
Definition assign_attribute (n : string) : io unit := if existsb (String.eqb n) shell_slots then Done tt else Fails NoAttribute.
(* stiffpanelbay.py:134-152: kC, kM and kG of every panel, then of the stiffeners. BladeStiff1D and
   BladeStiff2D have no __slots__, assignment to their attributes succeeds *)
Fixpoint clear_panels (ps : list panel) : io unit :=
  match ps with
  | [] => Done tt
  | _ :: ps =>
    match assign_attribute "kC", assign_attribute "kM", assign_attribute "kG" with
    | Done _, Done _, Done _ => clear_panels ps
    | _, _, _ => Fails NoAttribute
    end
  end.
(* stiffpanelbay.py:1411-1427 save *)
Definition bay_save (o : bay_object) (D : disk bay_object) : disk bay_object * io unit :=
  match clear_panels (by_panels (bo_bay o)) with
  | Fails e => (D, Fails e)
  | Done _ => dump (bo_name o ++ ".StiffPanelBay") true o D
  end.
Definition bay_load : string -> disk bay_object -> io bay_object := load_file ".StiffPanelBay".
