(** Model of matersdk/io/pwmat/utils/parameters.py, the two element tables, and
    of Python dictionaries (insertion ordered association lists). *)
From Coq Require Import String.
From Verif Require Import Base.

(** Python [d[k]]. *)
Fixpoint dget {K V} (eqb : K -> K -> bool) (d : list (K * V)) (k : K) : result V :=
  match d with
  | [] => Err KeyError
  | (k', v) :: r => if eqb k k' then Ok v else dget eqb r k
  end.

(** Python [d[k] = v] and [d.update({k: v})]: an existing key keeps its place. *)
Fixpoint dset {K V} (eqb : K -> K -> bool) (d : list (K * V)) (k : K) (v : V) : list (K * V) :=
  match d with
  | [] => [(k, v)]
  | (k', v') :: r => if eqb k k' then (k', v) :: r else (k', v') :: dset eqb r k v
  end.

(** A dictionary display: the pairs are stored one after another. *)
Definition dict {K V} (eqb : K -> K -> bool) (l : list (K * V)) : list (K * V) :=
  fold_left (fun d p => dset eqb d (fst p) (snd p)) l [].

(** parameters.py:1-122, the pairs in source order. *)
Definition number_pairs : list (Z * string) := ([
  (0%Z, "X0+"); (1%Z, "H"); (2%Z, "He"); (3%Z, "Li"); (4%Z, "Be"); (5%Z, "B"); (6%Z, "C");
  (7%Z, "N"); (8%Z, "O"); (9%Z, "F"); (10%Z, "Ne"); (11%Z, "Na"); (12%Z, "Mg"); (13%Z, "Al");
  (14%Z, "Si"); (15%Z, "P"); (16%Z, "S"); (17%Z, "Cl"); (18%Z, "Ar"); (19%Z, "K"); (20%Z, "Ca");
  (21%Z, "Sc"); (22%Z, "Ti"); (23%Z, "V"); (24%Z, "Cr"); (25%Z, "Mn"); (26%Z, "Fe"); (27%Z, "Co");
  (28%Z, "Ni"); (29%Z, "Cu"); (30%Z, "Zn"); (31%Z, "Ga"); (32%Z, "Ge"); (33%Z, "As"); (34%Z, "Se");
  (35%Z, "Br"); (36%Z, "Kr"); (37%Z, "Rb"); (38%Z, "Sr"); (39%Z, "Y"); (40%Z, "Zr"); (41%Z, "Nb");
  (42%Z, "Mo"); (43%Z, "Tc"); (44%Z, "Ru"); (45%Z, "Rh"); (46%Z, "Pd"); (47%Z, "Ag"); (48%Z, "Cd");
  (49%Z, "In"); (50%Z, "Sn"); (51%Z, "Sb"); (52%Z, "Te"); (53%Z, "I"); (54%Z, "Xe"); (55%Z, "Cs");
  (56%Z, "Ba"); (57%Z, "La"); (58%Z, "Ce"); (59%Z, "Pr"); (60%Z, "Nd"); (61%Z, "Pm"); (62%Z, "Sm");
  (63%Z, "Eu"); (64%Z, "Gd"); (65%Z, "Tb"); (66%Z, "Dy"); (67%Z, "Ho"); (68%Z, "Er"); (69%Z, "Tm");
  (70%Z, "Yb"); (71%Z, "Lu"); (72%Z, "Hf"); (73%Z, "Ta"); (74%Z, "W"); (75%Z, "Re"); (76%Z, "Os");
  (77%Z, "Ir"); (78%Z, "Pt"); (79%Z, "Au"); (80%Z, "Hg"); (81%Z, "Tl"); (82%Z, "Pb"); (83%Z, "Bi");
  (84%Z, "Po"); (85%Z, "At"); (86%Z, "Rn"); (87%Z, "Fr"); (88%Z, "Ra"); (89%Z, "Ac"); (90%Z, "Th");
  (91%Z, "Pa"); (92%Z, "U"); (93%Z, "Np"); (94%Z, "Pu"); (95%Z, "Am"); (96%Z, "Cm"); (97%Z, "Bk");
  (98%Z, "Cf"); (99%Z, "Es"); (100%Z, "Fm"); (101%Z, "Md"); (102%Z, "No"); (103%Z, "Lr");
  (104%Z, "Rf"); (105%Z, "Db"); (106%Z, "Sg"); (107%Z, "Bh"); (108%Z, "Hs"); (109%Z, "Mt");
  (110%Z, "Ds"); (111%Z, "Rg"); (112%Z, "Cn"); (113%Z, "Nh"); (114%Z, "Fl"); (115%Z, "Mc");
  (116%Z, "Lv"); (117%Z, "Ts"); (118%Z, "Og")]%string).

(** parameters.py:125-246, the pairs in source order. *)
Definition symbol_pairs : list (string * Z) := ([
  ("X0+", 0%Z); ("H", 1%Z); ("He", 2%Z); ("Li", 3%Z); ("Be", 4%Z); ("B", 5%Z); ("C", 6%Z);
  ("N", 7%Z); ("O", 8%Z); ("F", 9%Z); ("Ne", 10%Z); ("Na", 11%Z); ("Mg", 12%Z); ("Al", 13%Z);
  ("Si", 14%Z); ("P", 15%Z); ("S", 16%Z); ("Cl", 17%Z); ("Ar", 18%Z); ("K", 19%Z); ("Ca", 20%Z);
  ("Sc", 21%Z); ("Ti", 22%Z); ("V", 23%Z); ("Cr", 24%Z); ("Mn", 25%Z); ("Fe", 26%Z); ("Co", 27%Z);
  ("Ni", 28%Z); ("Cu", 29%Z); ("Zn", 30%Z); ("Ga", 31%Z); ("Ge", 32%Z); ("As", 33%Z); ("Se", 34%Z);
  ("Br", 35%Z); ("Kr", 36%Z); ("Rb", 37%Z); ("Sr", 38%Z); ("Y", 39%Z); ("Zr", 40%Z); ("Nb", 41%Z);
  ("Mo", 42%Z); ("Tc", 43%Z); ("Ru", 44%Z); ("Rh", 45%Z); ("Pd", 46%Z); ("Ag", 47%Z); ("Cd", 48%Z);
  ("In", 49%Z); ("Sn", 50%Z); ("Sb", 51%Z); ("Te", 52%Z); ("I", 53%Z); ("Xe", 54%Z); ("Cs", 55%Z);
  ("Ba", 56%Z); ("La", 57%Z); ("Ce", 58%Z); ("Pr", 59%Z); ("Nd", 60%Z); ("Pm", 61%Z); ("Sm", 62%Z);
  ("Eu", 63%Z); ("Gd", 64%Z); ("Tb", 65%Z); ("Dy", 66%Z); ("Ho", 67%Z); ("Er", 68%Z); ("Tm", 69%Z);
  ("Yb", 70%Z); ("Lu", 71%Z); ("Hf", 72%Z); ("Ta", 73%Z); ("W", 74%Z); ("Re", 75%Z); ("Os", 76%Z);
  ("Ir", 77%Z); ("Pt", 78%Z); ("Au", 79%Z); ("Hg", 80%Z); ("Tl", 81%Z); ("Pb", 82%Z); ("Bi", 83%Z);
  ("Po", 84%Z); ("At", 85%Z); ("Rn", 86%Z); ("Fr", 87%Z); ("Ra", 88%Z); ("Ac", 89%Z); ("Th", 90%Z);
  ("Pa", 91%Z); ("U", 92%Z); ("Np", 93%Z); ("Pu", 94%Z); ("Am", 95%Z); ("Cm", 96%Z); ("Bk", 97%Z);
  ("Cf", 98%Z); ("Es", 99%Z); ("Fm", 100%Z); ("Md", 101%Z); ("No", 102%Z); ("Lr", 103%Z);
  ("Rf", 104%Z); ("Db", 105%Z); ("Sg", 106%Z); ("Bh", 107%Z); ("Hs", 108%Z); ("Mt", 109%Z);
  ("Ds", 110%Z); ("Rg", 111%Z); ("Cn", 112%Z); ("Nh", 113%Z); ("Fl", 114%Z); ("Mc", 115%Z);
  ("Lv", 116%Z); ("Ts", 117%Z); ("Og", 118%Z)]%string).

(** parameters.py:1 *)
Definition atomic_number2specie : list (Z * string) := dict Z.eqb number_pairs.
(** parameters.py:125 *)
Definition specie2atomic_number : list (string * Z) := dict String.eqb symbol_pairs.

(** [atomic_number2specie[n]] *)
Definition symbol_of (n : Z) : result string := dget Z.eqb atomic_number2specie n.
(** [specie2atomic_number[s]] *)
Definition number_of (s : string) : result Z := dget String.eqb specie2atomic_number s.
