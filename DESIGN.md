# Formal model of weio in Coq 8.16.1: design

Source: `/repo` (python, read as text, never run).  All paths below are relative to `/repo/weio`.

## 1. Approach

* One model per module of weio: small, total, computable Gallina functions that follow the
  python functions branch by branch.  Exceptions are values (`res A := Ok a | Err e`), mutation is
  state passing, a loop is structural recursion or recursion on explicit fuel (exhaustion is the
  error `OutOfFuel`, which the theorems exclude).  A branch that is not modelled returns
  `Err Unmodelled` (or `None`), which is never the result claimed by a theorem.
* Text is `list ascii` (notation `str`), bytes are `N` below 256, float32/float64 data is treated as opaque
  values when it is only moved around, and as exact rationals `Q` when it is computed with (see 4).
* File layout in `rocq/theories`: `X_Model.v` (definitions only, every one citing the source lines),
  `X_Spec.v` (independent specification, when it is not small), `X_Proofs.v` (lemmas), `X_Props.v` (small
  specification, property theorems, `Print Assumptions`, non-vacuity `Example`s).
  `Py.v`, `PyFacts.v`, `TextFacts.v`, `ListFacts.v`, `Bytes.v`, `Float.v`, `Dict.v`, `FS.v`, `NumLen.v` model python's strings,
  lists, numbers, dictionaries and the file system, and prove facts about them.
* A property that the code violates gets a theorem `..._refuted` with an explicit witness or, where possible,
  a universal negative statement, plus the strongest true statement about the same function (named `..._partial`
  when it is a weakening of the property).
* Every round of wrong programs is recorded in `seeded/LOG.jsonl`.

## 2. Plan per property

| id | model | proof |
|----|-------|-------|
| C01 | registry list + insertion by stable argsort on priority | sortedness, permutation, stability by induction |
| C02, C03 | `detectFormat` loop over formats, constructor behaviour is an arbitrary function | induction on the format list, iff characterisation |
| C04 | `os.path.splitext`, `lower`, membership, rewriting of patterns, small matcher for the regex subset | induction on strings |
| C05 | `read` with/without format | case analysis; kwargs part refuted by witness |
| C06 | `fileFormats` with the module-level cache as state | induction on call list; shape part refuted |
| C07 | `File.read`/`File.write` over an abstract file system | case analysis, frame conditions |
| C08 | `ascii_comp` on strings | normal-form function, equivalence by equality of normal forms |
| C09-C12 | Mann box reader/writers on bytes | list index laws by induction, `div/mod` arithmetic; digit extraction |
| C13-C16 | TurbSim byte codec, quantisation in Q, mirror, aliasing as state | round trip by parser/printer lemmas; `Q` inequalities; list laws |
| C17-C21 | FAST binary codec, buffered reader with explicit buffer size, quantisation, unit loop, file-system state with crash points | induction on rows/buffers; witness for C20, C21 |
| C22-C24 | list of items as ordered dictionary, op sequences | fold invariants; witnesses for C23, C24 |
| C25, C26 | line tokenizer/printer, OutList scanner | string lemmas |
| C27 | `ReadHawc2.__call__` with its `Iknown`/`Data` cache | invariant and witness (the cache index is wrong) |
| C28-C30 | AE/PC set dictionaries, printer/parser on tokens, interpolation in Q | induction, witness |
| C31-C33 | HTC ordered dictionary, tree printer/parser with fuel | nested induction, witness for C33 |
| C34, C35 | cell generator index formulas, cell writer/translator | `div/mod` arithmetic, list laws |
| C36, C37 | graph state and operations | invariants over operation lists; witness for stale cache |
| C38-C40 | Bladed flattening, grouping, FLEX layout | index laws; witness for C39 |
| C41 | writers as sequences of file-system steps | witness per writer, positive theorem for the base protocol |
| C42 | title line printer/parser | induction on number of round trips |
| C43 | JSON export as state transformer | induction on calls; witness |
| C44 | deck writer | case analysis; witness for ServoFile |
| C45, C46 | CSV header logic; YAML subset reader | induction on lines |
| C47 | stepWind in Q | induction on steps |
| C48, C49 | profile and time-series printers/parsers on token lines | induction |
| C50, C52 | float32 rounding of scale and offset (bit exact, `Float.v`) inside the TurbSim and FAST codecs | interval estimates in Q; witnesses |
| C51, C53 | header fields to coordinates and time vector | exact arithmetic on the decoded bytes; witness for irregular time |
| C54 | `.sel` header printer and reader of HAWC2 | fixed columns, list induction; witnesses |
| C55 | list of AE sets | iff characterisation |
| C56, C57 | HTC comparison and assignment | induction on sections and on edit histories; witnesses |
| C58, C59 | VTK object state across reads and writes | frame statements; universal refutation of C58 |
| C60 | `isBinary` | character classes by exhaustive computation over the 256 characters, induction on the line |
| C61-C63 | graph sorting, lookup tables, nodal data | permutation reasoning with an arbitrary argsort |
| C64 | FLEX time vector, in Q and in single/double precision | `Float.v`; witness |
| C65, C66 | Bladed data types and unreadable data | case analysis; witnesses |
| C67, C68 | Tecplot tables and re-reading | printer/parser; witnesses |
| C69-C71 | CSV writing, re-reading, deterministic wind files | composition of the CSV reader with its writer |
| C72, C73, C83, C84 | SubDyn summary: class-level state, modes, reading, JSON | state passing with a global object; index arithmetic |
| C74 | labels of the time-series table | case analysis; witness |
| C75, C76 | FLEX profile reader | induction on sets |
| C77 | ROSCO performance tables | line scanner, induction |
| C78, C79 | FAST text output reader and writer | token lines |
| C80 | deck reader over an arbitrary module reader and file system | case analysis; witnesses |
| C81, C82 | linearization files: line scanner, matrices, short names | induction on lines; witnesses |
| C85-C89 | tables, file lists and BeamDyn sections of FAST input files | printer/parser; induction on rows |
| C90-C93, C96 | HAWC2 st files: text, sets, interpolation, assignment, frames | printer/parser; exact interpolation |
| C94, C95 | element stiffness matrix and shape functions over Q | ring/field identities, sums of squares |
| C97-C99 | HAWC2 and BHawC result files: pairs of files, labels, text data | file system with two names; regular expressions as matchers |
| C100-C102 | HAWCStab2 headers and tables | splitting lemmas, induction on columns |
| C103 | FLEX documentation files: sections, keys, values by regular expressions | line automaton; matchers; witnesses |
| C104 | FLEX blade files: numbered sections | printer/parser over lines; witnesses |
| C105 | FLEX wave kinematics: header numbers and labels of the columns | regular expressions as matchers; witnesses |
| C106 | BModes files: a pass over the lines with a state | induction on modes; invariant of the pass |
| C107 | TDMS files from the objects of nptdms | addresses split back into names; three tests decide equality of regular times |
| C108 | workbooks from the cells of the sheets | index lists of the used rows and columns; composition of reader and writer |
| C109 | the reading loop over whole FAST input files, and `toString` | induction on the blocks of a file with the state of the loop; progress of every turn |
| C110 | AeroDyn 14 airfoils | the reader on every layout; a universal negative for the writer |
| C111 | the dedicated classes for blades and polars: choice, checks, writers, failed writes | pointwise relations between the entries before and after; uniqueness of numbered labels |
| C112 | mode shapes in data frames of towers and blades, on exact numbers | columns compared with a Horner polynomial; ring |
| C113 | superelement files of ExtPtfm | a relation that says what blocks in any order mean; induction on it; composition with the writer |
| C114 | SubDyn files to graphs | specification from the tables row by row; rigid body energy by ring; induction over the tables |
| C115 | HydroDyn files to graphs | same, with the tables whose rows always raise |
| C116 | SubDyn summaries to graphs | specification from the lists of nodes and elements; refutations for the moduli and the diameter |
| C117 | node table and JSON of a graph | relation to the C37 graph by induction over nodes and elements |
| C118 | CACTUS geometry lines | relational specification of a line; induction over the lines; refutation for longer files |
| C119 | CACTUS time data: names and files | blocks of four columns per blade; the four file names from the input name |
| C120 | CACTUS data frame, rotor and blades | a table of expected columns (name and value at each row), sequence of insertions by induction; exact rationals with pi, cos, sin as parameters |
| C121 | CACTUS data frame, elements | same machinery over blades and elements; selection of rows by a recursive specification |
| C122 | points of a TurbSim box | `Nearest` specification (smallest distance, first of the ties), equivalence with argmin; averages as sums over the steps |
| C123 | probes | induction over the locations; the printed file as a function of the printer of numbers |
| C124 | Mann grids and tables | ceiling of an exact quotient gives the number of points; sums of arithmetic sequences |
| C125 | conversions | `Holds`: what a MannBoxFile reads from the file; single precision from the model of C04; there and back |
| C126 | scaling | averages and variances of affine images, square root as a function with its defining equation at the point used |
| C127 | periodicity check | equivalence with the statement over all points |
| C128 | tables of a TurbSim box | cell by cell up to equality of rationals |
| C129 | correlations | `Coefficient`: covariance over the product of the deviations, none when that is zero; square root as a function with its defining equation at the points used; bounds by Cauchy-Schwarz, proved by induction over the series |
| C130 | planes | nearest index as in C122; the plane, and the box left behind, point by point |
| C131 | RAAW files | `Table`: rows, names and cells, from the list of signals; the Matlab reader and the date parser are functions of the statement |
| C132 | self tests | reader and writer are functions of the statement, the writer touching only its own file; disk before and after |
| C133 | AeroDyn blade frames | `Centre`: the position of the aerodynamic centre from the number of nodes alone; cosine, sine and pi are functions of the statement; one row per node |
| C134 | polar frames | `Row`, `Frame`: each added cell from the row, the parameters and the last angle below each marker (`Last_below`), in degrees; suffixes from the label |
| C135 | comments | `Positions`: the remark lines of a polar; `lines_are`: the lines of a text; the data entry by entry before and after |
| C136 | empty files | the keys written out for any number of tables; the steps of the constructors run one by one, overwriting lines of the same label |
| C137 | HTC included files | files are a function of the statement; `reading`/`expansion`: inductive relation on lines; `located`: where a file is; the recursion limit of Python is a number of the statement |
| C138 | paths in any case | directories are a function from paths to names; `exists_in`, `same_letters`, `prefers` component by component |
| C139 | HTC names | `entry`, `values`: first entry of a name in the contents; `only`: everything else is unchanged; `sim_file`: path from folder, subfolders and name; `abspath` is a function of the statement |
| C140 | HTC times | the same `only`, `values3` for lines inside subsections; one theorem for all combinations of arguments |
| C141 | HTC lists of files | `results_of`, `all_results`, `turbulence`, `written`: inductive descriptions of the files from the contents |
| C142 | comparing HTC files | `alike`: inductive relation between trees that the empty report is proved equivalent to; `item_report`, `extra_report`, `only_in`: the report item by item; induction on trees |
| C143 | finding HTC items | `reach`: following keys; `the_item`: the only item with a property; `holds`, `has_all` say what the property is |
| C144 | sections of a body | `sections`: the rows that the section lines hold; argsort is any function that sorts (`sorts`); texts of numbers are functions of the statement that read back (`faithful`), shown to exist |
| C145 | bodies and frames | `bodies_of`: names and bodies in file order; `body_frames`, `st_part`: frames of one body; structural files are a function of the statement |
| C146 | Mann turbulence | `at_`: item at a path; `given`: a line has new values and keeps its name and comment; `only`: nothing else changes; number formats are functions of the statement (`number_texts`) shown to exist |
| C147 | exported turbulence | `exportable`, `starts_at`: the values needed; `sampled`: the sampling by inequalities; `export_lines`: the section written out; `output_files` of C141 for the list |
| C148 | controller, water, shear | `tuned`: the texts of the tuning file; `first_controller`; `constants`: which constant gets which gain; `wind_values`; the power law of wetb is a function of the statement |
| C149 | input files | `named_by`: per section, which value of which line is a file; `own`; `placed`: where a name is found; `fine`: the lines that must be there; the order of a set is a function of the statement |
| C150 | running | `fresh`: what makes results new; the list of actions; `log_is`, `near`: the lines of the report, `dotted`; the program, the times of files and the function that runs programs (absent here) are quantified |
| C151 | objects and parents | a heap of objects with identity; `at_path`: the object that keys lead to; `tidy`; `only_at`: nothing else changes; `like`: the copy and the original, by induction on the depth |
| C152 | adding sections | `ordinary` names; `new_place`: the key of what is added; `filled`: the contents followed by the arguments, members overriding keyword arguments in their place; by induction over the arguments |
| C153 | model folder, batch jobs | `best`: most of the relative input files, then the nearest; `slashed`; the file system, `realpath` and `abspath` are quantified; `pbs_file` with the class of jobs absent as in the code |
| C154 | values along the blade, tables | `row_is`: the row of a table; `nearest_row`: the first nearest; `greatest`, `far`: not within the tolerance of any row; `polars`: names and tables in order; by the lemmas on interpolation and by induction over sets and polars |
| C155 | lift on whole degrees | `same`: equal numbers, both not a number, or the same exception; a table moved by 180 degrees has moved values; the grid of 360 values is increasing |
| C156 | files of other libraries | decoder and encoder are quantified functions; `used`: the name of a call; `unreadable`: the reasons of a failure; `others_kept`; by cases over the protocol of C01 and induction over the variables |
| C157 | sets of HTC files | `seen_from`: a path from the model folder; `files_of` one entry; `chain`: jobs made and saved in turn through a quantified world; induction over the lists of names and of files |

Every property is expressible; what is left out of the models is listed in section 4.

## 3. Findings

Each item is a theorem (named, or collected under the property given) about behaviour that a user would not expect.

**Registry and base class.** `fileFormats` returns a cached list whatever the arguments of later calls, so `ignoreErrors=True` gives a
pair once and a bare list afterwards (C06). `read` drops keyword arguments when the format is given (C05). The declared extensions `.00X`
and `doc` can match no file name; a star is a wildcard only at the end of a pattern (C04). A text file with a tab in its first line is
taken for binary (C60).

**Mann boxes, TurbSim.** An empty box is written but refused (C09). A constant wind of 12.2 m/s is read back as 13.2 m/s, and a narrow range
around a large mean wraps around, because scale and offset are stored in single precision (C50). `toDataFrame` removes the mean from the
stored field (C16). `makePeriodic` on fewer than two time steps fails (C15).

**FAST binary and text outputs.** A table with only the time column is written but unreadable (C17); units of columns without unit are those of
the previous column (C20); a channel name of 11 characters truncates the existing file (C21); irregular time is lost (C53). Text outputs: a
single row is unusable, the header is not written back (C78, C79).

**FAST input files.** Assigning a missing key does nothing, silently (C23); every iteration ends with IndexError (C24); a missing key of an
unnamed object raises TypeError (C22); lists of one element, lists of names, and quoted texts starting with a blank do not survive (C25);
everything behind END of the output list is dropped (C26). Tables: airfoil coordinates cannot be read back (C85); numbers beyond those of the
first row are dropped, tables without header raise UnboundLocalError when empty (C86); fewer units than names raise ValueError (C88); file
names with blanks are cut and a list of one file gains a line at each writing (C89).

**Decks.** Writing: ServoFile refers to the AeroDyn file; directories in the prefix are lost in the references; IceFile is referenced, never
written; CompElast=0 writes a file called `none` (C44). Reading: SubDyn is gated by `HD`, AeroDyn14 decks raise, quoted absolute paths
in an aerodynamic file are not found, coordinates accumulate and modules remain after a re-read (C80).

**Linearization, SubDyn.** Matrices of the earlier file remain, the number of columns is not checked, a file without the marker line is
accepted (C81); short names are not unique (C82). `toJSON` shifts the connectivity by one per call (C43) and uses the object that was read
last, whichever object it is called on (C72).

**HAWC2.** The channel cache returns wrong channels (C27); a last time rounding to zero makes the file unreadable (C54); `AE` sets not
numbered 1..n raise KeyError (C55); labels of `PC` sets are lost (C29); thicknesses above the last and single profiles raise ValueError (C30).
HTC: end comments grow, lines whose name starts with begin/end, blank lines in output sections and others do not survive (C32); copies lose
sensors (C33); comparison misses sensors of the second section (C56); assignment to a key that is an attribute name is ignored (C57).
st files: a repeated main set replaces the earlier one, only the last set is checked, `#` or `$` in a comment breaks reading (C91); numbers that
fill 15 characters are glued (C90); bending about y uses the shear factor of the other plane (C94). Result files: an existing `stem.dat.sel` shadows
the written pair, upper-case and other extensions cannot be read back (C97); a second `toDataFrame` repeats prefixes (C98); BHawC files with
fewer than three channels are refused (C99). HAWCStab2: a column number glued to a name (as in the example file) costs a letter or the name,
`.txt` files are never read, one row is an IndexError, foreign files and broken tables raise NameError (C100, C101); a Campbell file of
zero modes raises ZeroDivisionError (C102).

**VTK, graphs.** A 1x1x1 grid raises IndexError (C34); cell data are lost with polygons, meshes without cells are unreadable (C35); fields of the
earlier file remain (C58); writing pads two-component fields in place (C59). Dividing an element without property numbers raises after having
changed the graph (C36); the connectivity table is stale after additions (C37, C62).

**FLEX, Bladed, Tecplot.** Single-precision time vectors can have one entry too many (C64). Profile files: writing always empties the file and
fails (C48); a set without thicknesses ends reading (C75); equal thicknesses overwrite each other (C76). Bladed: columns with equal rounded labels
are dropped (C38), groups hide each other (C39), I*4 is read as float (C65), unreadable 3D text becomes NaN (C66). Tecplot: the title grows by an
equal sign per round (C42); tables without rows, of one row or of one column are lost or unreadable (C67); `read()` without name fails (C68).

**CSV, YAML, wind, ROSCO, time series.** Comment lines at the end lose rows, more than 100 comment lines, names only (C45); column names are not
written with a header (C69); a units row becomes data on the second read (C70). YAML: colons, lists at the end, short rows (C46). `stepWind`
overshoots and rounds durations (C47). ROSCO `write` always fails after the first line (C41), an empty file is a NameError (C77). Time series: more
than ten header lines are refused, wide numbers are glued (C49), labels do not follow the file (C74). The writers that open the file before
the text is ready destroy it on failure (C41).

**FLEX documentation, blade and wave files, BModes, TDMS, workbooks.** Matrices lose their first row, two matrix keys are never read because of a
missing comma, texts with digits become arrays, units with digits are appended to the number (`9.81 [m/s2]` becomes two numbers), reading twice
raises (C103). Aerodynamic positions are ignored, a line of one number fills the section, a negative number of sections raises
ValueError and a blank damping line IndexError instead of a format error (C104). Wave kinematics labels have the opposite
sign of the depth, equal labels within 0.1 m, and files with an elevation per position are refused (C105). A BModes frequency at the
margin is ignored, a short one is a ValueError, an empty file a NameError (C106). TDMS channels with a slash in the name are dropped, quotes
and slashes in group names make the file unreadable (C107). Workbooks lose rows without values, tables without columns and texts such as
NA (C108).

**Whole FAST input files.** A file with `NumFoil` or `NumAFfiles` equal to zero is read for ever; `Re` is renamed `re`; a polar file with two tables
is written with labels that cannot be read; the first line of the additional stiffness grows with every round; what follows airfoil
coordinates is lost; the label of the nodal outputs grows with every round; a title whose second word is no label makes a file of fewer
than ten lines unreadable; an object that cannot be written empties the file (C109). AeroDyn 14 airfoils cannot be written, and trying to do so empties the file (C110). The dedicated classes
compare keys with their case, so a count in another case is not updated; labels outside the list of the polar format get one more number at
every round; when the file cannot be opened the object has lost its numbered labels; an aerodynamic blade with fewer than two nodes cannot be
written, and a failing write empties the file; the first entry of a polar file keeps its number (C111). A blade whose span column is not `BlFract_[-]` has no data frame (C112). The ExtPtfm class accepts files of other
formats without a word and keeps the blocks of an earlier file; numbers with long exponents are glued together; a row of one number fills the
matrix; its default object is written as a file that cannot be read; without loads the file is emptied; a negative size is a ValueError of numpy (C113).

**Graphs of files (`fast_input_file_graph.py`).** a SubDyn member of kind 0 is taken for a rigid link, and of two masses at one joint only the last
counts (C114); a HydroDyn file with any row in the tables of depth dependent, member based, filling or marine growth data has no graph (C115); in a graph of a
SubDyn summary the Young modulus is the area, the shear modulus is the density, and the diameter is twice the diameter (C116); missing nodal data look like
zeros, data called ID replace the number of the node, and SubDyn members have the diameter 1 in the JSON (C117).

**CACTUS (`cactus_file.py`).** lines of the geometry file after the place where the reader stops are ignored without a word, and text after a second colon is lost (C118); without element data
or without time data there is no data frame, a simulation of one step raises IndexError with the table already changed, and a second `toDataFrame` always raises ValueError because the columns
were added to the stored table itself (C120); of the dynamic stall columns, `dalphaD` and `alphaDot2` end up behind the others, `alphaDot2_[rad/s]` holds the negative change of an angle in degrees per step, and
any exception in that block is ignored (C121).

**Wind boxes (`turbsim_file.py`, `mannbox_file.py`).** `hubValues(zHub)` returns the stored reference speed for every height that is asked for, as soon as one is stored, which it is after every read (C122); the
names of the probes are rounded to the metre, so that two probes may have the same names and different values (C123); scaling the deviation of a steady point gives non-finite values (C126); a perfectly steady box is never
found periodic, because a difference of zero is divided by a deviation of zero (C127); the deviations of the vertical profile are the deviation over the lateral positions of the deviations in time, so that they vanish
with one lateral position whatever the turbulence, and so does the intensity (C128); `fromMannBox` keeps the tower of the object whatever the number of steps of the boxes, and a box with an axis of size one is silently
repeated along it (C125).

**Correlations, planes, RAAW files, self tests.** The correlation with a point whose wind does not vary is not a number (C129); `crosscorr_y` and `crosscorr_z` remove the mean from the line they use. `horizontalPlane` and `verticalPlane` with `removeMean` remove the mean from the box itself, so that asking twice or writing afterwards does not give the wind that was read (C130). A RAAW file takes its date from its last signal only; an empty file gives `NameError` because `EmptyFileError` is not imported there; a file without signals gives `UnboundLocalError` (C131). After `test_write_read` and `test_ascii` the object has the name of the temporary file, which may have been removed: the next `read()` fails with `OSError`, the next `write()` does not write the file. When the writer or the reader raises an exception whose first argument is not a text (`OSError(2, ...)`), the test stops with `TypeError`, and with `IndexError` when there is no argument, and the message is lost (C132).

**Blades, polars, comments and empty FAST files.** With fewer than seven nodes the aerodynamic centre of a blade is a quarter of the chord everywhere, also at the root (C133). A polar without unsteady data, or a file with coordinates, has no data frame: `KeyError` on `Cd0` or on `Alpha_[deg]` (C134). The comment of a polar is never a text: its getter returns the property object of the base class; setting a comment through `FASTInputFile` always raises an exception (it calls the comment as a function) and changes nothing; a comment line that starts with three dashes is no longer a comment line once set; a polar with fewer than four lines of text at its top is read, but `keys()` raises `AttributeError` or `IndexError`; `EDBladeFile(filename)` replaces its second entry by a bare text, after which `keys`, `write`, `toString`, setting a value and getting any but the first one raise `TypeError` (C135). `ADPolarFile(hasUA=True, numTabs=n)` has a single flag `InclUAdata` for all its tables, because it is added without the suffix; `ADBladeFile()` cannot be written: `ValueError` (C136).

**HTC: included files, names, times, lists.** The name of an included file is lowered, so that a file with capitals is not found on a file system that tells them apart; lines after `exit` are dropped but the files that they include must exist; files that include each other exhaust the recursion (C137). `unix_path` fails when two names differ by their case only, and never tries another directory than the first match (C138). `set_name` leaves animation and visualization alone when the simulation has no log file; a second output, `output_at_time` and exported turbulence keep their files, so that two simulations with different names write the same files; a name with a blank is cut at it: two names with the same first word share their log file (C139). `set_time(stop=t)` without start leaves the end of the output at its old value (C140). A turbulence format other than 0, 1, 2 gives `UnboundLocalError`; `output_files` lists lower-case names; a number as a file name makes the lists fail (C141).

**HTC: comparison, lookups, bodies.** `compare` does not report sensors that only the other file has (line 404 loops over the wrong list), nor comments, nor the types of sensors; a changed line is shown with `+` for the first file and `-` for the other, while an item that only the first file has is shown with `-`; a key that is a line in one file and a section in the other raises `KeyError` or `AttributeError` (C142). A line whose name has a dot or a slash cannot be found by its name; `get_element` with a text as key raises `NameError` on `name`; one subsection whose field has no value makes every `get_section` on that field fail (C143). `setBodyC2` with more rows than `nsec` raises `NotImplementedError` after it has changed `nsec`, so that a file saved later declares sections it does not have; `del bdy.c2_def.k` deletes an item named `k`; `bodyC2` does not compare `nsec` with the sections, and cuts the values of all lines in fives: five sections of six values give six rows (C144). Of two bodies with the same name only the last can be reached; bodies whose sections cannot be read are left out of the data frames without a message; a body whose name is a number makes the conversion fail (C145).

**HTC: turbulence, export, controller, shear.** `add_mann_turbulence` writes spacings with four decimals: with the default 16384 points no spacing gives the default length of 6000; a stem with a blank is split into two values; without file names it imports `wetb`, which is not there, and fails after the format and the parameters have been set; with two names the third file is silently left as it was (C146). `add_turb_export` writes a fraction as number of steps when the time step does not divide the time; when there is no Mann box, or no `%s` in the file name, it fails and leaves a half-written section; the files of a second export are not among `output_files` (C147). The constants of a controller are counted, not looked up by their number, so that a file that omits one gets the gains in the wrong places; a controller with fewer constants is changed in part before `KeyError`; `get_shear` fails for power shears without `wetb` and refuses logarithmic shears (C148).

**HTC: input files.** `input_files` looks for the files of the `wakes` section in the `wind` section, so that they are never listed, and fails when there are wakes and no wind; the file itself is listed by its absolute name, so that a file that is not saved yet has no list (`OSError`); a number as name, or an `external_bladedata_dll` with fewer than three values, and there is no list; names that differ by case or by `./` give the same file twice; `output_profile_coef_filename`, `write_ct_cq_file` and `write_final_deficits` are outputs but are listed as inputs (C149).

**HTC: running, objects.** The import of `pexec` is commented out, so that `simulate` and `simulate_hawc2stab2` save the file and then raise `NameError`; `skip_if_up_to_date` makes `simulate` fail with `TypeError` exactly when there is nothing to do; `PATH` is split at semicolons also on Linux; lines of the report are numbered from zero and its dots come one line too early (C150). The members of a copied section have no parent: `delete` raises `AttributeError`, and asking such a line for a value it does not have raises `TypeError`, because the message needs the location; an object that was added to two sections is deleted from the second only; `location` of a sensor or of a deleted object is an `IndexError` (C151).

**HTC: adding sections, model folder, batch jobs.** `add_section` with a name that exists returns what is there, even a line, and drops the section, the members and the keyword arguments in silence; an `output` section that is passed is replaced by an empty one, and an `output_at_time` section that is passed is a `ValueError`; an `output_at_time` section is looked for by three words and stored under one, so that it is added again each time; a section passed beside a name is stored under its own name; a member that is `None` raises `TypeError` with the section already added (C152). A file whose other input files are all absolute cannot be opened without a model folder, although it needs none; `pbs_file` extends the lists of the caller and then raises `NameError`, because the import of its class is commented out; `copy_turb=(False,)` copies the turbulence; an empty list of files is taken for none (C153).

**AE and PC files: values and tables.** `radius_ae(0)` returns all radii instead of the nearest; `toDataFrame` and `sets` of an AE file count its sets instead of using their numbers, so that a file with a single set numbered two, or with a gap, is a `KeyError`; of polars with one set number and one formatted thickness `toDataFrame` of a PC file keeps only the last (C154). The property `sets` of `HAWC2PCFile` returns an attribute that does not exist, so that it always raises `AttributeError` (not modelled).

**Lift on whole degrees, files of other libraries.** `CL_H2` takes the values of the polar at whole degrees up to 179 only: corners in between are cut off, and at 180 degrees the value at 179 is returned (C155). A failed `read` of a Parquet or NetCDF file leaves the new name with the old data, so that the next `write` replaces the file that could not be read; variables without dimension or with more than two have no table, without a message (C156).

**Sets of HTC files.** The module imports `wetb.hawc2.hawc2_pbs_file` and `wetb.utils.cluster_tools`, which are not in the repository. `HTCFileSet` looks names up in the working directory before the model folder, so that a file of the same name there is taken; a tuple of names is a `TypeError`; a file that a name and a pattern both stand for is in the set twice; `save_pbs_files` of a set with files always raises, as no batch job can be made (C157).

## 4. Trusted base

* Coq 8.16.1's kernel (checked again by `coqchk`).
* The reading of the python code: every definition of a `*_Model.v` file cites the lines it models, and says where it simplifies.
* The models of python and its libraries, each stated where it is defined: strings, `split`, `strip`, `int`, dictionaries, lists, slices,
  `os.path`, `struct` and numpy byte layouts, `np.loadtxt`/`pandas.read_csv` on the texts that the theorems name, the file system as a map from
  paths to absent / directory / bytes, with no concurrent change.
* `float(text)` and the formatting of floats are arguments of the theorems (functions `num`, `fmt`, ... with the stated round-trip
  hypotheses), so nothing is assumed about them silently.  Where doubles are computed with (interpolation, element matrices, quantisation) they are
  exact rationals, except in C50, C52, C64, where single (and double) precision rounding is modelled bit exactly in `Float.v`.
* Axioms: see section 5.

Modelled, by file: `__init__.py`, `file_formats.py`, `file.py` (registry, detection, read/write protocol, `isBinary`, comparison); `mannbox_file.py`
(read, write, names, grids, values, tables, `fromTurbSim`); `turbsim_file.py` (read, write, `makePeriodic`, data frames, points, probes, scaling, periodicity check, conversions); `turbsim_ts_file.py`; `fast_output_file.py` (text and binary read, binary
write, data frames); `fast_input_file.py` (the reading loop and the writer on whole files: values, labels, output lists, tables, file lists, polars, AeroDyn 14 airfoils, BeamDyn sections; data frames; the classes for blades, polars and ExtPtfm superelements);
`fast_input_deck.py`; `fast_linearization_file.py`; `fast_summary_file.py`; `fast_wind_file.py` (step wind, files); `mini_yaml.py`; `csv_file.py`;
`hawc2_ae_file.py`, `hawc2_pc_file.py`, `hawc2_st_file.py`, `hawc2_htc_file.py`, `hawc2_dat_file.py` with `wetb/` counterparts (`Hawc2io`, `ae_file`, `pc_file`,
`st_file`, `htc_contents`, `htc_file` reading and writing, included files, `unix_path`, `set_name`, `set_time`, `res_file_lst`, `turbulence_files`, `output_files`); `hawcstab2_*_file.py`; `vtk_file.py` (reading and writing, ASCII and binary); `flex_out_file.py`,
`flex_profile_file.py`; `bladed_out_file.py`; `tecplot_file.py`; `rosco_performance_file.py`; `tools/graph.py` (with the node table and the JSON); `fast_input_file_graph.py`; `cactus_file.py`; `hawc2_htc_file.py`;
`flex_doc_file.py`, `flex_blade_file.py`, `flex_wavekin_file.py`, `bmodes_out_file.py` (reading and data frames); `excel_file.py` and `tdms_file.py` from the cells and
objects that pandas and nptdms give; `parquet_file.py` and `netcdf_file.py` with the libraries as quantified functions; `htc_file_set.py` with its imports taken to succeed.

Not modelled: the binary formats of Parquet, NetCDF and Matlab files, which other libraries read; `cactus_element_file.py` (which returns no data), plotting; the part of `turbsim_file.py` that computes spectra and coherence; of the HTC files: templates and the empty file of `htc_extensions.py`; gzip
variants of HAWC2 results; text encodings other than one byte per character; warnings and printed messages; memory exhaustion and
interruption inside a library call.  The superelement files (`ExtPtfmFile`, from line 1656 of `fast_input_file.py`) are modelled in C113 as far as that
property says.

## 5. Print Assumptions

`Print Assumptions` was run on each of the 863 theorems listed in MANIFEST.json.  863 are "Closed under the global context".

`coqchk` also lists the fields of `Coq.ssr.ssrunder.Under_rel` (a module of the standard library that implements `under` by sealing).
They are loaded because a library file imports ssreflect; no theorem depends on them, as `Print Assumptions` shows.
