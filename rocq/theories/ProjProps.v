(** Projected densities of states and band weights: C81, C82, C83. *)
From Coq Require Import String Reals.
From Verif Require Import Base Text MovementModel ProjModel ProjSpec ProjProofs ProjBands ProjCases.
Local Open Scope string_scope.
Local Open Scope list_scope.
Local Open Scope nat_scope.
Local Open Scope R_scope.

(** ** C81 *)

(** The table by elements: the energies, and one column for each element that has orbitals.
    When no element's name begins a heading of another, every entry is the sum of that
    element's own orbitals and the entries of a row add up to all the orbitals. *)
Theorem C81_element_sums : forall fl so lines f g, enumerates so -> open_dos fl lines = Ok f -> get_pdos_elements so f = Ok g ->
  exists els, names g = "Energy" :: els /\ NoDup els /\
  (forall e, In e els <-> exists n, In n (skipn 2 (names f)) /\ belongs n e) /\
  (separated els (names f) ->
   Forall2 (fun row row' => exists en vals, row' = en :: vals /\ entry_under "Energy" (names f) row en /\
     Forall2 (fun e v => sum_where (fun n => belongs n e) (names f) row v) els vals /\
     sum_where (fun n => exists e, In e els /\ belongs n e) (names f) row (add_up vals)) (body f) (body g)).
Proof. exact pdos_own. Qed.
Print Assumptions C81_element_sums.

(** Without that condition an entry has everything added whose heading begins with the name
    of the element but belongs to another. *)
Theorem C81_excess : forall fl so lines f g, enumerates so -> open_dos fl lines = Ok f -> get_pdos_elements so f = Ok g ->
  exists els, names g = "Energy" :: els /\
  Forall2 (fun row row' => exists en vals, row' = en :: vals /\
    Forall2 (fun e v => exists own foreign, v = own + foreign /\ sum_where (fun n => belongs n e) (names f) row own /\
       sum_where (fun n => begins n e /\ ~ belongs n e) (names f) row foreign) els vals) (body f) (body g).
Proof. exact pdos_general. Qed.
Print Assumptions C81_excess.

(** Sulfur next to silicon: a total density of 3 becomes 3 + 2. *)
Theorem C81_sulfur_silicon_refuted : exists f g, open_dos digit s_si_lines = Ok f /\ get_pdos_elements (nodup string_dec) f = Ok g /\
  names f = ["Energy"; "Total"; "S-3S"; "Si-3S"] /\ body f = [[0; 3; 1; 2]] /\
  names g = ["Energy"; "S"; "Si"] /\ body g = [[0; 3; 2]].
Proof. exact s_si. Qed.
Print Assumptions C81_sulfur_silicon_refuted.

(** The table by elements exists exactly when there is a column of energies. *)
Theorem C81_defined : forall fl so lines f, open_dos fl lines = Ok f ->
  (In "Energy" (names f) -> exists g, get_pdos_elements so f = Ok g) /\
  (~ In "Energy" (names f) -> get_pdos_elements so f = Err KeyError).
Proof. exact pdos_defined. Qed.
Print Assumptions C81_defined.

(** The total density is the column named for it, in either spelling, beside the energies. *)
Theorem C81_total : forall fl lines f, open_dos fl lines = Ok f -> In "Energy" (names f) ->
  (forall t, total_name (names f) t -> exists g, get_tdos f = Ok g /\ names g = ["Energy"; t] /\
    Forall2 (fun row row' => exists x y, row' = [x; y] /\ entry_under "Energy" (names f) row x /\ entry_under t (names f) row y) (body f) (body g)) /\
  (~ In "Total" (names f) -> ~ In "total" (names f) -> get_tdos f = Err KeyError).
Proof. exact (fun fl lines f H => tdos_spec f (open_dos_rect fl lines f H)). Qed.
Print Assumptions C81_total.

(** The table by orbitals is the whole table without that column. *)
Theorem C81_orbitals : forall fl lines f, open_dos fl lines = Ok f ->
  (forall t, total_name (names f) t -> exists g, get_pdos_orbitals f = Ok g /\
    exists a b, names f = a ++ t :: b /\ ~ In t a /\ names g = a ++ b /\
    Forall2 (fun row row' => exists u x v, row = u ++ x :: v /\ length u = length a /\ row' = u ++ v) (body f) (body g)) /\
  (~ In "Total" (names f) -> ~ In "total" (names f) -> get_pdos_orbitals f = Err KeyError).
Proof. exact (fun fl lines f H => orbitals_spec f (open_dos_rect fl lines f H)). Qed.
Print Assumptions C81_orbitals.

(** The heading is read without the mark in front of it; the first line must exist. *)
Theorem C81_heading : forall fl, open_dos fl [] = Err IndexError /\
  forall head rows, split_ws head <> [] -> split_ws head <> ["#"] ->
  (forall r, In r rows -> split_ws r <> [] /\ length (split_ws r) = length (drop_first "#" (split_ws head)) /\ exists v, mapM fl (split_ws r) = Ok v) ->
  exists f, open_dos fl (head :: rows) = Ok f /\ names f = drop_first "#" (split_ws head) /\
  Forall2 (fun r row => mapM fl (split_ws r) = Ok row) rows (body f).
Proof. exact heading. Qed.
Print Assumptions C81_heading.

Example C81_case : exists f g, open_dos digit mos_lines = Ok f /\ get_pdos_elements (nodup string_dec) f = Ok g /\
  separated ["Mo"; "S"] (names f) /\ names g = ["Energy"; "Mo"; "S"] /\ body g = [[0; 2; 1]; [1; 2; 1]].
Proof. exact mos_case. Qed.

(** ** C82 *)

(** Band weights by elements: every row keeps distance, energy and total weight, and has for
    each element the sum of its own orbitals, when no element's name begins another
    heading. *)
Theorem C82_element_weights : forall fl so lines b f, enumerates so -> fat_open fl so lines = Ok b -> fat_frame fl lines = Ok f -> NoDup (names f) ->
  NoDup (elements b) /\ (forall e, In e (elements b) <-> exists n, In n (names f) /\ ~ In n head3 /\ belongs n e) /\
  exists parts, element_dfs fl b = Ok (head3 ++ elements b, parts) /\ length parts = num_bands b /\
  (separated (elements b) (names f) ->
   Forall2 (fun row row' => exists k e w vals, row' = k :: e :: w :: vals /\
     entry_under "KPOINT" (names f) row k /\ entry_under "ENERGY" (names f) row e /\ entry_under "weight_tot" (names f) row w /\
     Forall2 (fun el v => sum_where (fun n => belongs n el) (names f) row v) (elements b) vals) (body f) (concat parts)).
Proof. exact fat_own. Qed.
Print Assumptions C82_element_weights.

(** Potassium is never right: its weights have the distance along the path added. *)
Theorem C82_potassium_refuted : forall fl so lines b f, enumerates so -> fat_open fl so lines = Ok b -> fat_frame fl lines = Ok f -> NoDup (names f) ->
  exists parts, element_dfs fl b = Ok (head3 ++ elements b, parts) /\
   Forall2 (fun row row' => exists k e w vals, row' = k :: e :: w :: vals /\
     Forall2 (fun el v => el = "K" -> exists rest, v = k + rest /\
        sum_where (fun n => begins n "K" /\ n <> "KPOINT") (names f) row rest) (elements b) vals) (body f) (concat parts).
Proof. exact fat_potassium. Qed.
Print Assumptions C82_potassium_refuted.

(** Distances are the ones in the file divided by 0.529177249; everything else is as in the
    file. *)
Theorem C82_units : forall fl lines f, fat_frame fl lines = Ok f ->
  exists f0, read_csv fl (map split_ws (filter (fun l => negb (contains "BAND" l)) lines)) = Ok f0 /\ names f = names f0 /\
  exists a b, names f = a ++ "KPOINT" :: b /\ ~ In "KPOINT" a /\
  Forall2 (fun row row' => exists u x v, row = u ++ x :: v /\ length u = length a /\ row' = u ++ x / (529177249 / 10 ^ 9) :: v) (body f0) (body f).
Proof. exact units. Qed.
Print Assumptions C82_units.

(** A file of several bands without the column of energies or of total weights: ValueError. *)
Theorem C82_missing_column : forall fl so lines f, fat_frame fl lines = Ok f -> (2 <= length (filter (fun l => contains "BAND" (upper l)) lines))%nat ->
  ~ In "ENERGY" (names f) \/ ~ In "weight_tot" (names f) -> fat_open fl so lines = Err ValueError.
Proof. exact missing_column. Qed.
Print Assumptions C82_missing_column.
Example C82_case_missing : exists f, fat_frame digit ["KPOINT ENERGY"; "BAND 1"; "1 2"; "BAND 2"; "1 3"] = Ok f /\ names f = ["KPOINT"; "ENERGY"].
Proof. eexists. split; reflexivity. Qed.

(** Asking for an orbital returns the three first columns and every column in which the name
    occurs, whatever the case of letters... *)
Theorem C82_orbital : forall fl so lines b f o, fat_open fl so lines = Ok b -> fat_frame fl lines = Ok f ->
  exists ns parts, orbital_dfs fl b o = Ok (ns, parts) /\ length parts = num_bands b /\
  (forall n, In n ns <-> In n (names f) /\ (occurs_in o n \/ exists h, In h head3 /\ occurs_in h n)) /\
  (forall row', In row' (concat parts) -> length row' = length ns) /\ length (concat parts) = length (body f).
Proof. exact orbital_spec. Qed.
Print Assumptions C82_orbital.

(** ... with the values of those columns. *)
Theorem C82_orbital_values : forall fl so lines b f o, fat_open fl so lines = Ok b -> fat_frame fl lines = Ok f ->
  exists ns parts, orbital_dfs fl b o = Ok (ns, parts) /\
  Forall2 (fun row row' => picks (fun n => occurs_in o n \/ exists h, In h head3 /\ occurs_in h n) (names f) row ns row') (body f) (concat parts).
Proof. exact orbital_values. Qed.
Print Assumptions C82_orbital_values.

(** So an orbital of sulfur brings that of osmium along. *)
Theorem C82_sulfur_osmium_refuted : exists n m, occurs_in "S-3S" n /\ occurs_in "S-3S" m /\ belongs n "S" /\ belongs m "Os".
Proof. exact s_os. Qed.
Print Assumptions C82_sulfur_osmium_refuted.

Example C82_case : plain fat_head /\ ~ blank fat_head /\ (forall t, In t two_bands -> band_ok t /\ length (b_rows t) = 2%nat) /\
  exists b, fat_open digit (nodup string_dec) (file fat_head two_bands) = Ok b /\ num_bands b = 2%nat /\ num_kpoints b = 2%Z /\
  elements b = ["S"; "Os"] /\
  exists parts, orbital_dfs digit b "S-3s" = Ok (["KPOINT"; "ENERGY"; "weight_tot"; "S-3S"; "Os-3S"], parts).
Proof. exact two_case. Qed.

(** ** C83 *)

(** A file of bands that all have as many rows: there are as many tables as bands, and each
    is what its band alone would give. *)
Theorem C83_bands : forall fl so head bands b m, plain head -> ~ blank head -> (forall t, In t bands -> band_ok t /\ length (b_rows t) = m) ->
  fat_open fl so (file head bands) = Ok b ->
  exists ns parts, total_dfs fl b = Ok (ns, parts) /\
  Forall2 (fun t p => exists g, fat_frame fl (head :: b_rows t) = Ok g /\ names g = ns /\ body g = p) bands parts.
Proof. exact total_bands. Qed.
Print Assumptions C83_bands.

(** The number of bands is the number of titles; the number of k-points is the number of lines
    between the first two, less one: right when one blank line ends the first band. *)
Theorem C83_numbers : forall fl so head bands b, plain head -> (forall t, In t bands -> band_ok t) -> fat_open fl so (file head bands) = Ok b ->
  num_bands b = length bands /\
  forall t u r, bands = t :: u :: r -> num_kpoints b = (Z.of_nat (length (b_rows t)) + Z.of_nat (length (b_blank t)) - 1)%Z.
Proof. exact numbers. Qed.
Print Assumptions C83_numbers.

(** A file with a single band cannot be opened. *)
Theorem C83_one_band_refuted : forall fl so head bands, plain head -> (forall t, In t bands -> band_ok t) -> (length bands < 2)%nat ->
  fat_open fl so (file head bands) = Err IndexError.
Proof. exact too_few. Qed.
Print Assumptions C83_one_band_refuted.

(** In general the rows are dealt out in order, as evenly as possible. *)
Theorem C83_even_split : forall (l : list (list R)) k out, array_split l k = Ok out ->
  length out = k /\ concat out = l /\ forall p, In p out -> (length l / k <= length p <= S (length l / k))%nat.
Proof. exact (@array_split_spec (list R)). Qed.
Print Assumptions C83_even_split.

(** With bands of different length the tables mix them. *)
Theorem C83_uneven_refuted : exists head bands f parts, plain head /\ ~ blank head /\ (forall t, In t bands -> band_ok t) /\
  fat_frame digit (file head bands) = Ok f /\ array_split (body f) (length bands) = Ok parts /\
  map (fun t => length (b_rows t)) bands = [3; 1]%nat /\ map (@length (list R)) parts = [2; 2]%nat.
Proof. exact uneven_mixed. Qed.
Print Assumptions C83_uneven_refuted.

Example C83_case : (forall t, In t two_bands -> band_ok t /\ length (b_rows t) = 2%nat).
Proof. exact two_ok. Qed.
