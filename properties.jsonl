{"id": "C01", "title": "Format registry is a stable priority order", "statement": "weio.fileFormats() returns exactly the library formats plus the user formats (nothing lost, nothing duplicated), in non-decreasing priority, and two formats of equal priority stay in registration order (library before user).", "quantifier": "every list of user classes with any priorities (or none)", "why_tests_cant": "The user folder may contain any number of classes with any priorities; a test only tries a handful.", "anchors": ["weio/__init__.py:fileFormats", "weio/__init__.py:userFileClasses"]}
{"id": "C02", "title": "Detection returns the first acceptable matching format", "statement": "detectFormat(filename) returns the format F (and the object built by F) iff F's extensions match the file's extension, F's constructor succeeds, and every earlier matching format raised WrongFormatError; formats whose extension does not match are never tried.", "quantifier": "every registry, file name and constructor behaviour", "why_tests_cant": "Depends on the behaviour of every earlier reader on every file.", "anchors": ["weio/__init__.py:detectFormat", "weio/file_formats.py:isRightFormat"]}
{"id": "C03", "title": "Detection failure is never silent", "statement": "If no matching format accepts, detectFormat raises FormatNotDetectedError; if a matching format raises an exception other than WrongFormatError before any accepts, that exception propagates and no later format is tried. A WrongFormatError never escapes.", "quantifier": "every registry, file name and constructor behaviour", "why_tests_cant": "Needs all combinations of outcomes across an arbitrary list of readers.", "anchors": ["weio/__init__.py:detectFormat", "weio/file_formats.py:isRightFormat"]}
{"id": "C04", "title": "Extension matching is case-insensitive and means what the wildcard says", "statement": "Whether a format is tried depends on the file name only through its lower-cased last extension. A literal extension in the list matches by equality; a pattern containing '*' matches iff the regular expression obtained by the code's rewriting matches a prefix of the extension.", "quantifier": "every file name and every list of extension patterns", "why_tests_cant": "The set of file names and patterns is infinite.", "anchors": ["weio/__init__.py:detectFormat"]}
{"id": "C05", "title": "read with an explicit format equals that format's constructor", "statement": "read(f, F, **kw) gives what F(f, **kw) gives, and read(f) gives the object of the detected format. (The code drops **kw in the first case.)", "quantifier": "every file, format, keyword set", "why_tests_cant": "Keyword sets and formats are unbounded; the omission is invisible when the keywords happen not to matter.", "anchors": ["weio/__init__.py:read"]}
{"id": "C06", "title": "Repeated registry queries agree", "statement": "fileFormats called twice with the same arguments returns the same value with the same shape.", "quantifier": "every call history with any userpath/ignoreErrors arguments", "why_tests_cant": "History dependent (module-level cache); every sequence of calls matters.", "anchors": ["weio/__init__.py:fileFormats"]}
{"id": "C07", "title": "Read guards are complete and ordered", "statement": "File.read raises 'No filename provided', OSError(2), EmptyFileError exactly when respectively no name is known, the path is not a file, the file has size 0; otherwise the format's reader is run on the named file. A failed guard never alters the stored data, and an explicit filename argument always replaces the remembered one.", "quantifier": "every file-system state, remembered name and argument", "why_tests_cant": "Ranges over every file-system state and every history of previous reads.", "anchors": ["weio/file.py:File.read", "weio/file.py:File.write"]}
{"id": "C08", "title": "Text comparison is an equivalence insensitive to whitespace", "statement": "The text comparison used to compare two files (ascii_comp) is reflexive, symmetric and transitive, and is unchanged by replacing tabs by spaces, by adding trailing or leading blanks to lines, or by repeating blanks inside a line.", "quantifier": "every pair of text files", "why_tests_cant": "Infinite pairs of files.", "anchors": ["weio/file.py:ascii_comp"]}
{"id": "C09", "title": "Mann box write/read round trip", "statement": "Writing a box of any dimensions and reading the file back with the same dimensions gives the same field bit for bit; reading a file and writing the box back reproduces the bytes that were read.", "quantifier": "every nx, ny, nz >= 0 and every content (bit patterns including NaN)", "why_tests_cant": "All sizes and all float32 bit patterns.", "anchors": ["weio/mannbox_file.py:MannBoxFile.read", "weio/mannbox_file.py:MannBoxFile.write"]}
{"id": "C10", "title": "Mann box layout", "statement": "field[ix,iy,iz] is the float32 stored at word index ix*ny*nz + (ny-1-iy)*nz + iz of the file, for every index; words beyond nx*ny*nz are ignored and a file with fewer words is rejected.", "quantifier": "every dimension triple, every index, every file length", "why_tests_cant": "Index arithmetic over all sizes.", "anchors": ["weio/mannbox_file.py:MannBoxFile.read"]}
{"id": "C11", "title": "Buffered and unbuffered Mann box readers agree", "statement": "On any file holding exactly nx*ny*nz values, the two readers return the same field.", "quantifier": "every dimension triple and content", "why_tests_cant": "All sizes.", "anchors": ["weio/mannbox_file.py:MannBoxFile._read_buffered", "weio/mannbox_file.py:MannBoxFile._read_nonbuffered"]}
{"id": "C12", "title": "Mann box dimensions survive in the file name", "statement": "A box exported with the library's naming convention <base>_<nx>x<ny>x<nz>.<c> is re-read with exactly those dimensions, whatever digits the base name contains.", "quantifier": "every base name and every nx, ny, nz", "why_tests_cant": "Every base name (with any digits in it) and every number of digits.", "anchors": ["weio/mannbox_file.py:MannBoxFile.read", "weio/turbsim_file.py:TurbSimFile.toMannBox"]}
{"id": "C13", "title": "TurbSim byte layout round trip", "statement": "Reading the bytes TurbSimFile.write produces recovers every header field and every quantised sample at the same (component, time, y, z) index, and every tower sample, for all sizes.", "quantifier": "every nz, ny, nTwr, nt >= 2 (0 tower points allowed), header values and samples", "why_tests_cant": "All sizes, index order (Fortran) errors show up only for particular shapes.", "anchors": ["weio/turbsim_file.py:TurbSimFile.read", "weio/turbsim_file.py:TurbSimFile.write"]}
{"id": "C14", "title": "TurbSim quantisation stays in range and is accurate to one quantum", "statement": "In exact arithmetic, every sample is stored as an integer in [-32768, 32767] and is read back within one quantum (max-min)/65535 of its value; constant fields are read back exactly.", "quantifier": "every field of numbers, including constant fields", "why_tests_cant": "Holds for every field, including extreme ranges.", "anchors": ["weio/turbsim_file.py:TurbSimFile.write", "weio/turbsim_file.py:TurbSimFile.read"]}
{"id": "C15", "title": "TurbSim makePeriodic", "statement": "makePeriodic yields 2*nt-2 time steps, keeps the first nt steps unchanged, and the result is symmetric: step i equals step (2nt-2)-i for 0<i<2nt-2, so repeating it is continuous.", "quantifier": "every number of time steps, grid size and content", "why_tests_cant": "All lengths, off-by-one at both ends of the mirror.", "anchors": ["weio/turbsim_file.py:TurbSimFile.makePeriodic"]}
{"id": "C16", "title": "Converting a TurbSim file to data frames does not change it", "statement": "Calling toDataFrame (or the correlation/line-extraction helpers) leaves the stored wind field unchanged.", "quantifier": "every field and every sequence of query calls", "why_tests_cant": "Aliasing: only visible if the field is used again after the query.", "anchors": ["weio/turbsim_file.py:TurbSimFile._longiline", "weio/turbsim_file.py:TurbSimFile._vertline", "weio/turbsim_file.py:TurbSimFile.toDataFrame"]}
{"id": "C17", "title": "FAST binary output round trip", "statement": "Reading the bytes written for a FAST binary output (FileID 2) recovers the description, channel names and units, the number of rows and the packed integer of every (row, channel), for every table size.", "quantifier": "every number of channels (fewer than 163840) and rows, names/units of at most 10 characters, description", "why_tests_cant": "All table sizes, all names.", "anchors": ["weio/fast_output_file.py:writeBinary", "weio/fast_output_file.py:load_binary_output"]}
{"id": "C18", "title": "Buffered table reading is independent of the buffer size", "statement": "Reading an nRows x nCols table of little-endian numbers through the row buffer gives the same table as reading it at once, whatever the buffer size, and a file that is too short is reported as an error.", "quantifier": "every number of rows, columns, buffer size >= one row, and file content", "why_tests_cant": "Boundary bugs appear only at particular size/buffer combinations (last partial buffer).", "anchors": ["weio/fast_output_file.py:freadRowOrderTableBuffered"]}
{"id": "C19", "title": "FAST binary quantisation", "statement": "In exact arithmetic every channel value is stored as an integer of the int16 range and read back within one quantum (max-min)/65535 (exactly, for a constant channel), whatever rounding the intermediate operations perform the stored integer is in range.", "quantifier": "every channel content", "why_tests_cant": "Every sequence of numbers.", "anchors": ["weio/fast_output_file.py:writeBinary"]}
{"id": "C20", "title": "FAST output units follow the columns", "statement": "writeDataFrame writes for every column the unit in its name, or an empty unit when it has none.", "quantifier": "every data frame and column-name list", "why_tests_cant": "Depends on the history of previous columns (stale variable).", "anchors": ["weio/fast_output_file.py:writeDataFrame"]}
{"id": "C21", "title": "A failed FAST binary write leaves the previous file", "statement": "If writing a FAST binary output fails (for instance a channel name longer than 10 characters), the file that existed before is intact.", "quantifier": "every table, every previous file content, every failure point", "why_tests_cant": "Crash points: every possible failing position.", "anchors": ["weio/fast_output_file.py:writeBinary"]}
{"id": "C22", "title": "FAST input file behaves as a case-insensitive dictionary", "statement": "After f[k]=v on an existing key, f[k'] is v for every k' equal to k up to case and every other key keeps its value; keys and their order never change; reading a missing key raises KeyError.", "quantifier": "every file content and every sequence of get/set operations", "why_tests_cant": "Every history of operations.", "anchors": ["weio/fast_input_file.py:FASTInputFileBase.__getitem__", "weio/fast_input_file.py:FASTInputFileBase.__setitem__", "weio/fast_input_file.py:FASTInputFileBase.getIDs"]}
{"id": "C23", "title": "Setting a missing FAST input key is reported", "statement": "f[k]=v for a key not in the file either stores the value or raises.", "quantifier": "every file content and key", "why_tests_cant": "Every content; the failure is silent.", "anchors": ["weio/fast_input_file.py:FASTInputFileBase.__setitem__", "weio/fast_input_file.py:FASTInputFileBase.getIDs"]}
{"id": "C24", "title": "Iterating a FAST input file terminates normally", "statement": "for item in f visits every item once, in order, and stops.", "quantifier": "every file content", "why_tests_cant": "Every length including zero.", "anchors": ["weio/fast_input_file.py:FASTInputFileBase.__iter__", "weio/fast_input_file.py:FASTInputFileBase.__next__"]}
{"id": "C25", "title": "FAST input value/label lines survive write and read", "statement": "Every value/label/description line written by the library is parsed back to the same value, label and description.", "quantifier": "every value that is an integer, boolean, quoted or plain token or list of tokens, every label and description", "why_tests_cant": "All strings.", "anchors": ["weio/fast_input_file.py:parseFASTInputLine", "weio/fast_input_file.py:FASTInputFileBase.toString"]}
{"id": "C26", "title": "Output-channel lists are read up to END and nothing else is consumed", "statement": "parseFASTOutList collects the lines up to (excluding) the first line starting with END (any case), and the reader resumes right after it; more than 200 lines is an error rather than a runaway.", "quantifier": "every list of lines", "why_tests_cant": "All line lists.", "anchors": ["weio/fast_input_file.py:parseFASTOutList"]}
{"id": "C27", "title": "HAWC2 channel requests return the requested channels", "statement": "Calling a ReadHawc2 object with a list of channels returns those channels' data in that order, whatever was requested before.", "quantifier": "every history of channel requests", "why_tests_cant": "The internal cache makes the result depend on the full history of earlier calls.", "anchors": ["weio/wetb/hawc2/Hawc2io.py:ReadHawc2.__call__"]}
{"id": "C28", "title": "HAWC2 AE sets: save/load and set numbers", "statement": "add_set without a number uses the smallest unused positive number and never overwrites a set; saving and re-reading an AE file restores every set under its number with the same rows in the same order.", "quantifier": "every collection of sets and rows, every sequence of add_set calls", "why_tests_cant": "Unbounded histories.", "anchors": ["weio/wetb/hawc2/ae_file.py:AEFile.add_set", "weio/wetb/hawc2/ae_file.py:AEFile.__str__", "weio/wetb/hawc2/ae_file.py:AEFile._read_file"]}
{"id": "C29", "title": "HAWC2 PC sets keep their labels", "statement": "Saving and re-reading a PC file restores every set under the label it had.", "quantifier": "every collection of sets", "why_tests_cant": "Labels other than 1..n are only reachable through add_set.", "anchors": ["weio/wetb/hawc2/pc_file.py:PCFile.__str__", "weio/wetb/hawc2/pc_file.py:PCFile._parse_lines", "weio/hawc2_pc_file.py:HAWC2PCFile.add_set"]}
{"id": "C30", "title": "HAWC2 polar interpolation", "statement": "Interpolated coefficients at a tabulated thickness equal that profile's value, between two thicknesses they are the convex combination of the two neighbours, and a thickness outside the table never crashes.", "quantifier": "every thickness table and query", "why_tests_cant": "Every query, including both ends.", "anchors": ["weio/wetb/hawc2/pc_file.py:PCFile._Cxxx"]}
{"id": "C31", "title": "HTC duplicated names never overwrite", "statement": "Reading an htc file stores every line and section: the n-th occurrence of a name is kept under name, name__2, name__3, ... and none replaces another.", "quantifier": "every sequence of additions", "why_tests_cant": "Arbitrarily many duplicates in arbitrary order.", "anchors": ["weio/wetb/hawc2/htc_contents.py:HTCContents._add_contents"]}
{"id": "C32", "title": "HTC write/read round trip", "statement": "Printing an htc tree and parsing the text gives the same tree (sections, line names, values, order) up to the main_body-first reordering of the printer, which itself is idempotent.", "quantifier": "every tree of sections and lines", "why_tests_cant": "Unbounded nesting and content.", "anchors": ["weio/wetb/hawc2/htc_contents.py:HTCSection.from_lines", "weio/wetb/hawc2/htc_contents.py:HTCSection.__str__", "weio/wetb/hawc2/htc_contents.py:HTCContents.__iter__"]}
{"id": "C33", "title": "Copying an HTC section copies everything", "statement": "section.copy() prints the same text as section.", "quantifier": "every section, including output sections", "why_tests_cant": "Needs every kind of section.", "anchors": ["weio/wetb/hawc2/htc_contents.py:HTCSection.copy"]}
{"id": "C34", "title": "VTK structured cells index the right points", "statement": "For a structured grid the generated cell at (i,j,k) lists exactly the points (i..i+1, j..j+1, k..k+1) in VTK order, indices being in range for the generated points.", "quantifier": "every grid dimension with at least 2 points in 1, 2 or 3 directions", "why_tests_cant": "Index arithmetic over all grid sizes.", "anchors": ["weio/vtk_file.py:_generate_cells", "weio/vtk_file.py:_generate_points"]}
{"id": "C35", "title": "VTK cell blocks survive write and read", "statement": "Cell blocks written to a legacy VTK file and read back give the same cells in the same order with the same node numbering (including the wedge reordering).", "quantifier": "every list of cell blocks with fixed node counts", "why_tests_cant": "All block lists.", "anchors": ["weio/vtk_file.py:_write_cells", "weio/vtk_file.py:translate_cells"]}
{"id": "C36", "title": "Graph element division", "statement": "divideElements(n) turns every two-node element into a chain of n elements from its first to its second node through n-1 new nodes equally spaced, keeps all previous nodes, and all node and element IDs stay unique.", "quantifier": "every graph with unique IDs and every n >= 1, both insertion methods", "why_tests_cant": "All graphs; ID collisions only appear for particular numberings.", "anchors": ["weio/tools/graph.py:GraphModel.divideElements", "weio/tools/graph.py:GraphModel._divideElement"]}
{"id": "C37", "title": "Graph connectivity always refers to current node positions", "statement": "At any time connectivity[e] lists the positions in Nodes of the nodes of element e.", "quantifier": "every sequence of graph operations (add, sort, divide, query)", "why_tests_cant": "A cache: depends on the interleaving of queries and updates.", "anchors": ["weio/tools/graph.py:GraphModel.connectivity", "weio/tools/graph.py:GraphModel.addElement", "weio/tools/graph.py:GraphModel.sortNodesBy"]}
{"id": "C38", "title": "Bladed 3D to 2D flattening keeps every value", "statement": "Every value (time, section, channel) of a Bladed 3D data set appears in the flattened table under the column naming that channel and section, and nowhere else.", "quantifier": "every number of sections, channels and time steps", "why_tests_cant": "All sizes.", "anchors": ["weio/bladed_out_file.py:OrgData"]}
{"id": "C39", "title": "Bladed data sets are all exposed", "statement": "Reading Bladed results exposes every data set found.", "quantifier": "every list of sensor files", "why_tests_cant": "Depends on the combination of files present.", "anchors": ["weio/bladed_out_file.py:BladedFile._read"]}
{"id": "C40", "title": "FLEX results layout", "statement": "The value of sensor j at time i is scale[j]*raw, raw being the int16 at word i*n+j (or j*nt+i for version 3 files), for every size.", "quantifier": "every number of sensors, time steps and content", "why_tests_cant": "All sizes.", "anchors": ["weio/flex_out_file.py:read_flex_res"]}
{"id": "C41", "title": "Writing a file never destroys it", "statement": "If obj.write() fails or the format has no writer, the previous content of the target file is still there.", "quantifier": "every object, every previous content", "why_tests_cant": "Crash points.", "anchors": ["weio/fast_linearization_file.py:FASTLinearizationFile._write", "weio/rosco_performance_file.py:write_rotor_performance", "weio/flex_profile_file.py:FLEXProfileFile._write"]}
{"id": "C42", "title": "Tecplot title is stable under write/read", "statement": "Writing a Tecplot file and reading it back any number of times keeps the title.", "quantifier": "every title and every number of round trips", "why_tests_cant": "Grows with the number of round trips.", "anchors": ["weio/tecplot_file.py:_process_merged_line", "weio/tecplot_file.py:TecplotFile.write"]}
{"id": "C43", "title": "Exporting a SubDyn summary to JSON does not change it", "statement": "toJSON can be called any number of times and always returns the same result.", "quantifier": "every summary and number of calls", "why_tests_cant": "History dependent.", "anchors": ["weio/fast_summary_file.py:subDynToJson"]}
{"id": "C44", "title": "OpenFAST deck write keeps module references", "statement": "After deck.write the main file references, for each written module, the file name under which that module was written.", "quantifier": "every deck content, prefix, suffix and directory", "why_tests_cant": "All combinations of modules.", "anchors": ["weio/fast_input_deck.py:FASTInputDeck.write"]}
{"id": "C45", "title": "CSV skip-row computation", "statement": "The rows handed to the data parser are exactly the file's rows minus the leading header rows, the column-name line and the comment lines; no data row is skipped twice or lost.", "quantifier": "every header length, comment-line list and column-name line", "why_tests_cant": "All combinations.", "anchors": ["weio/csv_file.py:CSVFile._read"]}
{"id": "C46", "title": "YAML subset reader", "statement": "Reading a YAML-subset document written as key: value lines and dash lists of numbers returns those keys and values in order.", "quantifier": "every document of the subset", "why_tests_cant": "All documents, particularly a list at the very end of the file.", "anchors": ["weio/mini_yaml.py:yaml_read", "weio/mini_yaml.py:readDashList"]}
{"id": "C47", "title": "Step wind time series is increasing", "statement": "stepWind produces strictly increasing times, starting at tmin, and holds each wind speed for its step duration.", "quantifier": "every step list, step duration and dt with 0 < dt < tstep", "why_tests_cant": "All parameter choices.", "anchors": ["weio/fast_wind_file.py:FASTWndFile.stepWind"]}
{"id": "C48", "title": "FLEX profile write/read", "statement": "A FLEX profile file that was read can be written and read back with the same sets.", "quantifier": "every profile file", "why_tests_cant": "All contents.", "anchors": ["weio/flex_profile_file.py:ProfileSet.toString", "weio/flex_profile_file.py:FLEXProfileFile._write"]}
{"id": "C49", "title": "TurbSim time-series text round trip", "statement": "Writing a TurbSim time-series file and reading it back restores header, number of components, reference point, points and data table (numbers taken as printed).", "quantifier": "every header without the keyword nComp of at most 10 lines, every point list and table", "why_tests_cant": "All sizes.", "anchors": ["weio/turbsim_ts_file.py:TurbSimTSFile.toString", "weio/turbsim_ts_file.py:TurbSimTSFile._read"]}
{"id": "C50", "title": "TurbSim file accuracy with stored single-precision scaling", "statement": "Reading back a written TurbSim file gives every sample within one quantum (max-min)/65535 of its component, also when the scale and offset are stored in single precision.", "quantifier": "every field, including constant ones and small fluctuations around a large mean", "why_tests_cant": "The loss depends on the rounding of the offset for the particular minimum and range of a component; tests use a few turbulence boxes.", "anchors": ["weio/turbsim_file.py:TurbSimFile.write", "weio/turbsim_file.py:TurbSimFile.read"]}
{"id": "C51", "title": "TurbSim coordinates are recovered", "statement": "Writing a TurbSim box on a regular grid with y centred on 0 and t starting at 0, then reading it, gives the same y, z and t vectors.", "quantifier": "every grid size and every single-precision spacing and bottom height", "why_tests_cant": "All sizes and spacings.", "anchors": ["weio/turbsim_file.py:TurbSimFile.write", "weio/turbsim_file.py:TurbSimFile.read"]}
{"id": "C52", "title": "FAST binary file accuracy with stored single-precision scaling", "statement": "Every channel value of a written FAST binary output is read back within 1.05 quanta (max-min)/65535 (1/65535 for a constant channel) plus 2.5e-7 of the magnitude of the channel minimum, with the scale and offset stored in single precision.", "quantifier": "every table of at most 163840 channels, every channel that is constant or whose range is between 1e-6 and 1e9", "why_tests_cant": "The error depends on the rounding of scale and offset for the particular minimum and range; tests use a few channels.", "anchors": ["weio/fast_output_file.py:writeBinary", "weio/fast_output_file.py:load_binary_output"]}
{"id": "C53", "title": "FAST binary time column", "statement": "The time column of a written FAST binary output is read back unchanged.", "quantifier": "every table", "why_tests_cant": "All time vectors, including irregularly sampled ones.", "anchors": ["weio/fast_output_file.py:writeBinary", "weio/fast_output_file.py:load_binary_output"]}
{"id": "C54", "title": "HAWC2 .sel channel information round trip", "statement": "The channel names, units and descriptions written to a HAWC2 .sel file are the ones read back from it, together with the number of scans and channels.", "quantifier": "every list of channels and texts", "why_tests_cant": "All texts and lengths, including those longer than their columns.", "anchors": ["weio/hawc2_dat_file.py:HAWC2DatFile._write", "weio/wetb/hawc2/Hawc2io.py:ReadHawc2._ReadSelFile"]}
{"id": "C55", "title": "All AE sets are listed", "statement": "The sets attribute and toDataFrame of a HAWC2 AE file give every set of the file.", "quantifier": "every collection of set numbers", "why_tests_cant": "Set numbers other than 1..n are only reachable through add_set or unusual files.", "anchors": ["weio/hawc2_ae_file.py:HAWC2AEFile.sets", "weio/hawc2_ae_file.py:HAWC2AEFile.toDataFrame"]}
{"id": "C56", "title": "Comparing two HTC output sections reports every difference", "statement": "Comparing two output sections of HTC files gives an empty report only when both have the same sensors, and lists every sensor that only one of them has", "quantifier": "all pairs of sensor lists, of any lengths", "why_tests_cant": "Tests compare one pair of files; the number of sensors and which of the two is longer vary freely", "anchors": ["weio/hawc2/htc_contents.py:HTCOutputSection.compare"]}
{"id": "C57", "title": "Editing one HTC entry leaves all others unchanged", "statement": "After any sequence of add_line, add_section, assignment and deletion on a section, every entry not named by an assignment or deletion is still there with the same contents; section.key = values makes the file contain the line key values", "quantifier": "all sections, all keys, all finite sequences of edits", "why_tests_cant": "Histories of edits are unbounded and the interaction of generated keys with user keys shows only for particular names", "anchors": ["weio/hawc2/htc_contents.py:HTCContents.__setattr__", "weio/hawc2/htc_contents.py:HTCContents._add_contents", "weio/hawc2/htc_contents.py:HTCContents.__delattr__"]}
{"id": "C58", "title": "Reading a VTK file gives the content of that file", "statement": "After read(file) the fields of a VTK object are exactly those of the file, also when the object held another file before.", "quantifier": "every pair of readable files read one after the other into the same object", "why_tests_cant": "A test reads one pair; stale state depends on the history of the object.", "anchors": ["weio/vtk_file.py:VTKFile.read"]}
{"id": "C59", "title": "Writing a VTK file does not change the object", "statement": "write() leaves the points, cells and fields of the object unchanged.", "quantifier": "every object that can be written", "why_tests_cant": "A test compares one object; the property is about all field shapes.", "anchors": ["weio/vtk_file.py:VTKFile.write"]}
{"id": "C60", "title": "Binary files are recognised by content", "statement": "isBinary(filename) decides from the first line only: the file is binary exactly when that line contains a control character (other than the line ends); a file of printable text, blanks and tabs is never classified as binary.", "quantifier": "every file content", "why_tests_cant": "the classification must be right for every byte string; a test only tries a few files", "anchors": ["weio/file.py:isBinary"]}
{"id": "C61", "title": "Sorting the nodes of a graph", "statement": "sortNodesBy(key) with key x, y, z or ID puts the same nodes in increasing order of that value: no node is lost or changed, IDs stay, every element keeps its nodes; any other key, or mode or motion data, raises and leaves the graph as it was.", "quantifier": "every graph, every key, every order numpy's argsort may choose among equal values", "why_tests_cant": "All graphs and ties; what must stay unchanged cannot be enumerated by tests.", "anchors": ["weio/tools/graph.py:GraphModel.sortNodesBy"]}
{"id": "C62", "title": "Graph lookup tables between nodes and elements", "statement": "nodeIDs2ElementIDs, nodeIDs2Elements and elementIDs2NodeIDs can be asked at any time and list, for each ID, exactly the elements touching that node (the nodes of that element).", "quantifier": "every history of graph operations and queries", "why_tests_cant": "Cached tables: correctness depends on the history, including the first query of a fresh graph.", "anchors": ["weio/tools/graph.py:GraphModel.nodeIDs2ElementIDs", "weio/tools/graph.py:GraphModel.nodeIDs2Elements", "weio/tools/graph.py:GraphModel.elementIDs2NodeIDs"]}
{"id": "C63", "title": "Nodal data of a graph", "statement": "Setting data on a node of a graph gives that node exactly the new values, keeps its other data, its identifier and position, and changes no other node, element or property; an unknown node raises KeyError and changes nothing.", "quantifier": "every reachable graph, node and data", "why_tests_cant": "All histories of calls.", "anchors": ["weio/tools/graph.py:GraphModel.setNodalData", "weio/tools/graph.py:Node.setData"]}
{"id": "C64", "title": "FLEX time column", "statement": "Reading a FLEX result file gives exactly one time per stored step, the i-th being start time + i * time step as declared in the file header, whatever the header numbers are.", "quantifier": "all numbers of steps, all start times and time steps representable in the file", "why_tests_cant": "the number of entries of the time vector depends on rounding of the product of two header values; a test only samples a few pairs", "anchors": ["weio/flex_out_file.py:FLEXOutFile._read", "weio/flex_out_file.py:read_flex_res"]}
{"id": "C65", "title": "Bladed numbers have the declared type", "statement": "The values read from a Bladed binary data file are the numbers stored in it, decoded with the number type its sensor file declares (R*4, R*8, I*4).", "quantifier": "all sensor files, all data files", "why_tests_cant": "tests read a few files of one type; a wrong type gives plausible tables", "anchors": ["weio/bladed_out_file.py:read_bladed_sensor_file", "weio/bladed_out_file.py:read_bladed_output"]}
{"id": "C66", "title": "Unreadable Bladed data are reported", "statement": "Reading a Bladed output file whose data file cannot be read as the declared table raises an error; it never returns a table of made-up values.", "quantifier": "all sensor files and data files", "why_tests_cant": "there are many ways for a data file to be wrong; tests use good files", "anchors": ["weio/bladed_out_file.py:read_bladed_output", "weio/bladed_out_file.py:BladedFile._read"]}
{"id": "C67", "title": "A Tecplot table survives writing and reading", "statement": "Writing a Tecplot file with variable names and a table of numbers, then reading it back, gives the same names in the same order and the same rows; no other file changes.", "quantifier": "every list of variable names, every table, every number of rows and columns", "why_tests_cant": "Shapes (one row, one column, no rows) and characters in names each take another path through the reader; tests show one table.", "anchors": ["weio/tecplot_file.py:TecplotFile.write", "weio/tecplot_file.py:read_tecplot", "weio/tecplot_file.py:_process_merged_line"]}
{"id": "C68", "title": "Reading a Tecplot file again gives the content of that file", "statement": "Calling read() again, with or without the name, leaves the object with the content of the file and with nothing of what it held before.", "quantifier": "every file content and every earlier state of the object", "why_tests_cant": "The result depends on the history of the object; a test sees one history.", "anchors": ["weio/tecplot_file.py:TecplotFile.read"]}
{"id": "C69", "title": "A CSV table survives writing and reading", "statement": "Writing a table read or built by the user to a CSV file and reading that file returns the same column names and the same numbers.", "quantifier": "every table with plain names and numbers, every usual separator, with and without header lines", "why_tests_cant": "Depends on every combination of names, separators and header lines; the detection heuristics look at the text of the first lines.", "anchors": ["weio/csv_file.py:CSVFile._write", "weio/csv_file.py:CSVFile._read"]}
{"id": "C70", "title": "Reading a CSV file again gives the content of that file", "statement": "Calling read again on a CSV object, for the same or another file, gives what a new object gives for that file.", "quantifier": "every pair of files read one after the other by one object", "why_tests_cant": "State kept between the two readings matters; all pairs of files cannot be tested.", "anchors": ["weio/csv_file.py:CSVFile._read"]}
{"id": "C71", "title": "A deterministic wind file survives writing and reading", "statement": "A FAST deterministic wind file written by weio is read back with the same header lines, the eight standard column names and the same rows.", "quantifier": "every header of comment lines, every non-empty table of eight columns", "why_tests_cant": "Must hold for every table and header.", "anchors": ["weio/fast_wind_file.py:FASTWndFile", "weio/csv_file.py:CSVFile"]}
{"id": "C72", "title": "Methods of a summary object use that object", "statement": "After several SubDyn summary files have been read, the JSON form and the mode table of each object describe the structure of the file read into that object, and asking for them changes no other object.", "quantifier": "every sequence of readings and calls on any number of summary objects", "why_tests_cant": "depends on the order of reading several files and on hidden shared state", "anchors": ["weio/fast_summary_file.py:readSubDynSum", "weio/fast_summary_file.py:FASTSummaryFile"]}
{"id": "C73", "title": "SubDyn mode shapes", "statement": "The mode shapes of a SubDyn summary have one row per node that carries a degree of freedom, with the position of the node and in each direction the value of its degree of freedom (NaN if it has none); scaling makes the largest displacement of every mode equal to the given one; sorting keeps rows together; the table contains the positions and, for every mode and direction that moves, position plus displacement and displacement.", "quantifier": "every numbering of degrees of freedom, every mode matrix, number of modes and scaling", "why_tests_cant": "ranges over all numberings of degrees of freedom and all matrices", "anchors": ["weio/fast_summary_file.py:NodesDisp", "weio/fast_summary_file.py:getModes", "weio/fast_summary_file.py:subDynToDataFrame"]}
{"id": "C74", "title": "Labels of the TurbSim time series table follow the file", "statement": "For a TurbSim user time series file, each column of the TimeSeries table carries the point number and component that the file gives for that column.", "quantifier": "every readable time series file, every number of points and components", "why_tests_cant": "the sample file has one point, where the two possible orders of the columns coincide", "anchors": ["weio/turbsim_ts_file.py:TurbSimTSFile.columns", "weio/turbsim_ts_file.py:TurbSimTSFile._toDataFrame"]}
{"id": "C75", "title": "FLEX profile files are read completely", "statement": "Reading a FLEX profile file returns, in order, every set of the file with its title (without the words PROFILE SET), its thicknesses and one polar of four columns per thickness; nothing else is returned and a malformed set is reported.", "quantifier": "every text, every number of sets, thicknesses and angles", "why_tests_cant": "ranges over all file contents", "anchors": ["weio/flex_profile_file.py:FLEXProfileFile._read"]}
{"id": "C76", "title": "Every FLEX polar has a table", "statement": "The tables of a profile file contain one entry per polar, named by set number and thickness, with the rows of that polar.", "quantifier": "every list of sets and thicknesses", "why_tests_cant": "names may collide for some thicknesses", "anchors": ["weio/flex_profile_file.py:FLEXProfileFile._toDataFrame"]}
{"id": "C77", "title": "ROSCO performance files are read completely", "statement": "Reading a rotor performance file gives the pitch, tip speed ratio and wind speed vectors and the Cp, Ct and Cq tables of the file, and the tables returned by toDataFrame carry exactly these values; a file that is not such a file is refused with a documented exception.", "quantifier": "every performance file: any vectors, any tables, any number of comment lines between them", "why_tests_cant": "The number of rows, columns and header lines and the texts in them are unbounded; a test fixes one file.", "anchors": ["weio/rosco_performance_file.py:load_from_txt", "weio/rosco_performance_file.py:ROSCOPerformanceFile.read", "weio/rosco_performance_file.py:ROSCOPerformanceFile.toDataFrame"]}
{"id": "C78", "title": "FAST text output files are read completely", "statement": "Reading a FAST text output file returns the header lines, all channel names, all units and every row of numbers in order, and the table has these rows under the names and units of the file; a file without a line of names or without rows is refused with a documented exception.", "quantifier": "every text: any header, any number of channels and rows", "why_tests_cant": "The number of rows, columns and header lines and the texts in them are unbounded; a test fixes one file.", "anchors": ["weio/fast_output_file.py:load_ascii_output", "weio/fast_output_file.py:FASTOutputFile._read", "weio/fast_output_file.py:FASTOutputFile._toDataFrame"]}
{"id": "C79", "title": "FAST text output files survive writing and reading", "statement": "Writing a FAST output object as text and reading the file back gives the same channel names, units and rows, up to the rounding of the number formats.", "quantifier": "every output object: any number of channels and rows, any names and units without blanks", "why_tests_cant": "The number of rows, columns and header lines and the texts in them are unbounded; a test fixes one file.", "anchors": ["weio/fast_output_file.py:FASTOutputFile._write", "weio/fast_output_file.py:load_ascii_output"]}
{"id": "C80", "title": "A deck is read module by module", "statement": "Reading an OpenFAST deck (FASTInputDeck(main, readlist), read) gives, for every module that the main file enables and the readlist names, the content of the file that the main file (or the parent module file) names, resolved against the directory of the naming file; entries that name nothing (unused, none, ...), missing files and modules not in the readlist give None; modules the main file disables are None and nothing of an earlier read remains.", "quantifier": "every file system, every main file with any switches and any file names (quoted or not, relative or absolute), every readlist, every earlier state of the deck object, every number of polars", "why_tests_cant": "file names, switches, readlists and earlier states combine without bound; a test reads one shipped deck once", "anchors": ["weio/fast_input_deck.py:FASTInputDeck.read", "weio/fast_input_deck.py:FASTInputDeck.readAD", "weio/fast_input_deck.py:FASTInputDeck._read", "weio/fast_input_deck.py:FASTInputDeck.__init__"]}
{"id": "C81", "title": "Linearization files give their operating points and matrices", "statement": "Reading an OpenFAST linearization file returns the operating point lines of states, inputs and outputs and the matrices (A, B, C, D, ...) that the file contains, with the sizes announced in its header; reading another file with the same object gives the content of that file; a file that is not complete is refused.", "quantifier": "every linearization file: any number of states, inputs and outputs, any texts", "why_tests_cant": "The sizes and texts are unbounded, and the result depends on what was read before.", "anchors": ["weio/fast_linearization_file.py:FASTLinearizationFile._read", "weio/fast_linearization_file.py:readOP", "weio/fast_linearization_file.py:readMat", "weio/fast_linearization_file.py:extractVal"]}
{"id": "C82", "title": "Linearization tables carry the names of states, inputs and outputs", "statement": "toDataFrame of a linearization file gives one table per matrix and one per operating point, whose rows and columns are labelled by the short names of the states, inputs and outputs in the order of the file; the names of two channels differ.", "quantifier": "every linearization file and every description text", "why_tests_cant": "The short name is computed from free text; collisions show only for some texts.", "anchors": ["weio/fast_linearization_file.py:FASTLinearizationFile._toDataFrame", "weio/fast_linearization_file.py:FASTLinearizationFile.xdescr"]}
{"id": "C83", "title": "Reading a SubDyn summary numbers degrees of freedom from zero", "statement": "Reading a SubDyn summary returns the entries of the YAML document, with degrees of freedom numbered from zero (by their line when the file gives no number), the lists of degrees of freedom lowered by one, the frequencies in one column and the coordinates of the nodes under X, Y and Z; a file whose first five lines do not mention SubDyn is refused and leaves the object unchanged.", "quantifier": "every file content and every previous content of the object", "why_tests_cant": "ranges over all documents, table shapes and sizes", "anchors": ["weio/fast_summary_file.py:readSubDynSum", "weio/fast_summary_file.py:FASTSummaryFile.read"]}
{"id": "C84", "title": "The JSON form of a SubDyn summary describes its structure", "statement": "The first JSON export after reading a SubDyn summary lists the nodes with their coordinates, the elements by the two indices (from zero) of their ends with their property set and diameter, the Guyan modes GY1, GY2, ... and then the Craig-Bampton modes CB1, CB2, ... with their frequencies, each giving the displacement of every node in the three directions, and the ground level, which is the lowest node.", "quantifier": "every summary: any number of nodes, elements and modes", "why_tests_cant": "ranges over all structures; order and numbering must hold for every size", "anchors": ["weio/fast_summary_file.py:subDynToJson"]}
{"id": "C85", "title": "Tables of FAST input files survive writing and reading", "statement": "A table of a FAST input file (numbers with or without units, numbers under commented headers, matrices without header, texts and numbers) that is written and read again has the same column names, the same units, the same number of rows and columns and, in every cell, the number its written text denotes (or the same text).", "quantifier": "every table: any number of rows and columns, any names and units without reserved characters, any numbers", "why_tests_cant": "ranges over all table sizes and cell contents", "anchors": ["weio/fast_input_file.py:parseFASTNumTable", "weio/fast_input_file.py:FASTInputFileBase.toString"]}
{"id": "C86", "title": "Reading a numerical table gives the numbers of its lines or refuses it", "statement": "Reading a numerical table of a FAST input file returns, for each of its lines, the numbers before the comment in order (true and print standing for 1, false and noprint for 0), under the names and units of its header; a line with fewer numbers, a word that is not a number or a wrong number of lines raise BrokenFormatError.", "quantifier": "every file content following a header", "why_tests_cant": "ranges over all lines and numbers of lines", "anchors": ["weio/fast_input_file.py:parseFASTNumTable", "weio/fast_input_file.py:cleanAfterChar"]}
{"id": "C87", "title": "BeamDyn blade sections survive writing and reading", "statement": "The sections of a BeamDyn blade file that are written and read again have the same span positions and the same 6 by 6 stiffness and mass matrices, up to the precision of their text, in the same order; reading returns 6 by 6 matrices for exactly the announced number of sections or raises WrongFormatError.", "quantifier": "every list of sections", "why_tests_cant": "ranges over any number of sections and any matrices", "anchors": ["weio/fast_input_file.py:FASTInputFileBase.readBeamDynProps", "weio/fast_input_file.py:beamdyn_section_mat_tostring"]}
{"id": "C88", "title": "Data frames of FAST input tables hold the table under labelled columns", "statement": "The data frame of a numerical table has one column per name, labelled with the name and the unit in brackets, holding the numbers of that column; the data frame of BeamDyn sections has the columns Span, Kij and Mij, each exactly once, the diagonal terms first, where Kij and Mij hold the entry in row i and column j.", "quantifier": "every table and every list of sections", "why_tests_cant": "ranges over all tables; the reordering must be right for every entry", "anchors": ["weio/fast_input_file.py:FASTInputFileBase._toDataFrame"]}
{"id": "C89", "title": "Lists of files in FAST input files survive writing and reading", "statement": "A list of file names (airfoils) that is written and read again is the same list.", "quantifier": "every list of file names", "why_tests_cant": "ranges over list lengths and names", "anchors": ["weio/fast_input_file.py:parseFASTFilTable", "weio/fast_input_file.py:FASTInputFileBase.toString"]}
{"id": "C90", "title": "Writing a HAWC2 st file and reading it back gives the same sets", "statement": "For every structural-data object whose sets are complete (every main set has sets, every set has rows, all rows have 19 or all 30 numbers, numbers separated by a blank when formatted), saving writes a file which reads back as the same main sets, set numbers, rows and column names, up to the precision of the format; saving leaves the object unchanged, and saving what was read gives the same file.", "quantifier": "all objects (any number of main sets, sets, rows), all formatting/parsing functions for numbers that agree", "why_tests_cant": "The number of sets, rows and values is unbounded and the separation of numbers depends on every value", "anchors": ["weio/wetb/hawc2/st_file.py: StFile.save, StFile.__init__, to_str", "weio/hawc2_st_file.py: HAWC2StFile._write, _read"]}
{"id": "C91", "title": "Reading a HAWC2 st file gives exactly the sets it contains", "statement": "Reading a file made of main sets (#), sets ($), rows with optional comments after a semicolon gives exactly the numbered sets with their rows and the column names for 19 or 30 columns; a repeated main set or set number, too few rows, rows of different lengths or with a non-number, and a file without # or $ among its first thirteen lines are reported.", "quantifier": "all file texts of the grammar and all faulty variants", "why_tests_cant": "Files are unbounded texts; the faults can be in any set at any position", "anchors": ["weio/wetb/hawc2/st_file.py: StFile.__init__", "weio/hawc2_st_file.py: HAWC2StFile._read"]}
{"id": "C92", "title": "The methods of a HAWC2 st object interpolate the table", "statement": "A method named after a column gives at a radius of the table the number of that row, between two rows the linear interpolation, outside the first or last number, without a radius the whole column; unknown names are AttributeError, unknown sets KeyError; radius_st gives the radius of the table that is nearest, the first of equals.", "quantifier": "all tables with increasing radii, all radii, all columns", "why_tests_cant": "Quantifies over all tables and real radii", "anchors": ["weio/wetb/hawc2/st_file.py: StFile._value, radius_st"]}
{"id": "C93", "title": "set_value changes one column of one set and nothing else", "statement": "Assigning a column by name changes exactly the numbers of that column in that set, for one value or one value per row; every other column, set and main set stays; what cannot be assigned (unknown name, set, wrong number of values) leaves the object as it was before that assignment; the value is read back by the method of that name.", "quantifier": "all objects, names, values, sequences of assignments", "why_tests_cant": "Frame condition over all sets and rows, and over all prefixes of a sequence that fails", "anchors": ["weio/wetb/hawc2/st_file.py: StFile.set_value"]}
{"id": "C94", "title": "The element stiffness matrix is that of a Timoshenko beam", "statement": "For every beam element with positive stiffnesses the matrix is symmetric, rigid motions give no forces, the nodal forces are in equilibrium, the deformation energy is not negative, and a cantilever bends as the theory says; the properties are those of the file at the given radius.", "quantifier": "all beams, all lengths, all displacements", "why_tests_cant": "Algebraic identities over all real parameters", "anchors": ["weio/wetb/hawc2/st_file.py: StFile.element_stiffnessmatrix"]}
{"id": "C95", "title": "The shape functions interpolate the nodal displacements and reproduce rigid motions and the bent cantilever", "statement": "For every beam the shape functions give the nodal displacements at the ends, rigid motions everywhere for rigid nodal displacements, and the deflection of a cantilever under an end load.", "quantifier": "all beams, lengths, positions along the element and nodal displacements", "why_tests_cant": "Algebraic identities over all real parameters", "anchors": ["weio/wetb/hawc2/st_file.py: StFile.shape_function_ori"]}
{"id": "C96", "title": "The data frames of a HAWC2 st file are its sets", "statement": "toDataFrame gives one data frame for each set, under the name of the numbers of main set and set, no two with the same name, with the columns of the 19- or 30-column format and the rows of the set; a set with another number of columns is a ValueError.", "quantifier": "all objects", "why_tests_cant": "Any number of sets; injectivity of the names over all integers", "anchors": ["weio/hawc2_st_file.py: HAWC2StFile.toDataFrame"]}
{"id": "C97", "title": "A HAWC2 result file is read back as it was written", "statement": "HAWC2DatFile.write(name) followed by HAWC2DatFile(name) gives the same channel names, units, descriptions and values (as printed), for every name ending in .dat or .sel, and no other file is touched.", "quantifier": "all objects whose channels fit the columns of the .sel file, all number formats, all file names and contents of the directory", "why_tests_cant": "Names, widths and other files in the directory are unbounded; the failures depend on unusual file names.", "anchors": ["weio/hawc2_dat_file.py:HAWC2DatFile._write", "weio/wetb/hawc2/Hawc2io.py:ReadHawc2"]}
{"id": "C98", "title": "The columns of the data frame of a HAWC2 result file are named after their channel", "statement": "toDataFrame gives one column per channel, in order, whose name is built from that channel's own name, unit and description only (body, node, radius and name), with the values of the file unchanged; asking again gives the same names.", "quantifier": "all objects, all descriptions with each keyword at most once", "why_tests_cant": "Every combination of keywords in arbitrary free text descriptions.", "anchors": ["weio/hawc2_dat_file.py:HAWC2DatFile._toDataFrame"]}
{"id": "C99", "title": "A BHawC result file is read back as it was written", "statement": "Writing an object read from a BHawC file and reading it again gives the same channels and values.", "quantifier": "all objects with names and descriptions that fit, any number of channels", "why_tests_cant": "The outcome depends on the number of channels and on words inside free text.", "anchors": ["weio/hawc2_dat_file.py:HAWC2DatFile._write", "weio/wetb/hawc2/Hawc2io.py:ReadHawc2._ReadSelFile"]}
{"id": "C100", "title": "HAWCStab2 induction files: labels, values and wind speed", "statement": "Reading an induction file (.ind) whose header lists the columns as HAWCStab2 writes them gives one label per column, in the order of the header, made of the words of the name and the unit in brackets; the values are the numbers of the file, row by row; the kind (ind, fext or defl) follows from the number of columns and the wind speed from the number after '_u' in the file name, divided by 1000. A file that is not of this format is a WrongFormatError. Whenever reading succeeds every row has one value per label.", "quantifier": "all headers (any words, units and blanks), tables, file names, and texts for the success and error parts", "why_tests_cant": "The labels come from cutting a free text at fixed places; a test shows two labels of one example file only.", "anchors": ["weio/hawcstab2_ind_file.py:HAWCStab2IndFile._read", "weio/hawcstab2_ind_file.py:HAWCStab2IndFile._toDataFrame"]}
{"id": "C101", "title": "HAWCStab2 power files: labels and values", "statement": "Reading a power file (.pwr) with 15 columns gives the labels of the header in order and the numbers of the file; another number of columns is a WrongFormatError; whenever reading succeeds there are 15 labels and every row has 15 values.", "quantifier": "all headers, tables and texts", "why_tests_cant": "Same as for induction files: one example is tested.", "anchors": ["weio/hawcstab2_pwr_file.py:HAWCStab2PwrFile._read"]}
{"id": "C102", "title": "HAWCStab2 Campbell files: blocks of modes", "statement": "Reading a Campbell file (.cmb) whose first line ends with the number of modes n and whose table has 1+n, 1+2n or 1+3n columns labels them Wind, F1..Fn, then D1..Dn, then R1..Rn, with the numbers unchanged; any other number of columns is an error.", "quantifier": "all numbers of modes, tables and separators", "why_tests_cant": "There is no example file; the labels depend on a division of the number of columns.", "anchors": ["weio/hawcstab2_cmb_file.py:HAWCStab2CmbFile._read"]}
{"id": "C103", "title": "FLEX documentation files: names, tables and numbers", "statement": "Reading a FLEX documentation file finds every table under its two-part name, with the columns named by its header line (words, words with units, an optional leading number of rows, or C0, C1, ... when the number of names does not fit) and all its rows; every list of numbers is found under its name, one number as a number and several as an array, whatever words without digits follow; nothing is found under a name that is not in the file; the data frames are exactly the tables; the table of the global mode loses its first column and gets fixed names; a file that does not start with #Program is refused. Matrices, texts and units with digits should be found as they are in the file too.", "quantifier": "all files made of remarks, number lines with lines below them, tables and matrices with any number of rows and columns, any names, any header with columns of any blanks; for the data frames any file", "why_tests_cant": "a test reads one file; the claim is for every content of the file and every header", "anchors": ["weio/flex_doc_file.py:FLEXDocFile._read", "weio/flex_doc_file.py:FLEXDocFile._toDataFrame"]}
{"id": "C104", "title": "FLEX blade files: every quantity under its name", "statement": "Reading a FLEX blade file of any of the four versions gives its version, damping, profile file and a table with all known column names in one order: every structural and aerodynamic quantity of every section is under its name, whatever remarks follow the numbers of a line, and quantities that the version does not have are missing values; whenever reading succeeds every column has exactly the announced number of sections; other versions and files without a number of sections are refused. Sections whose two tables have different positions, or whose lines have too few numbers, should be refused.", "quantifier": "all versions, numbers of sections, values and remarks; for success any file", "why_tests_cant": "the repository has examples of some versions only; the claim is for every version and every number of sections", "anchors": ["weio/flex_blade_file.py:FLEXBladeFile._read"]}
{"id": "C105", "title": "FLEX wave kinematics: numbers of the header and labels", "statement": "Reading a FLEX file of wave kinematics gives the numbers of its header, whatever words without digits surround them, and the table with one label per column: the time, the elevation, then for every position the velocities at all depths and the accelerations at all depths. Counts that do not match the lists, another number of columns, and files without a table are refused. The labels of one point should give one position, and different points different labels; files with an elevation for every position, as the line above the table says, should be read.", "quantifier": "all numbers of positions and depths, all numbers, all rows; for success any file", "why_tests_cant": "the repository has one file with one position", "anchors": ["weio/flex_wavekin_file.py:FLEXWaveKinFile._read"]}
{"id": "C106", "title": "BModes output files: every mode with its frequency and its table", "statement": "Reading a BModes output file returns, in the order of the file, the frequency of every mode and its table of numbers, converted to tables Mode_1, Mode_2, ... with six named columns; whatever the file, a successful read has as many tables as frequencies and every table is rectangular; a file of another program is refused as another format and an empty file as empty.", "quantifier": "every first line, list of modes, surrounding lines, numbers of rows and way of turning texts into numbers", "why_tests_cant": "The reader looks for a mark in every line, skips a fixed number of lines and takes a fixed number of characters; tests read one file.", "anchors": ["bmodes_out_file.py:_read", "bmodes_out_file.py:_toDataFrame", "bmodes_out_file.py:toDataFrame"]}
{"id": "C107", "title": "TDMS files: every channel a column against the common time", "statement": "Reading a TDMS file gives one table: the time of the samples, then one column for each channel of each group, under the name of the channel and in the order of the file; channels sampled at different times are refused instead of being set side by side.", "quantifier": "every list of groups and channels, names, numbers of samples, values and times", "why_tests_cant": "Whether the three tests on the times (number, minimum, maximum) are enough, and whether the way names are taken out of addresses works, depends on all names and times; the tests have no TDMS file.", "anchors": ["tdms_file.py:_read", "tdms_file.py:_toDataFrame"]}
{"id": "C108", "title": "Workbooks: every sheet with a value gives a table; what is written is read back", "statement": "Reading a workbook gives, for every sheet with a value and under the name of the sheet, a table whose header is the first row with a value and whose rows and columns are those with a value, every value at its place; writing tables and reading the workbook gives the same tables under the same names in the same order.", "quantifier": "every list of sheets, every rectangle of cells, every set of values counted as missing, every dictionary of tables", "why_tests_cant": "Which rows and columns are dropped depends on the pattern of empty cells of the whole sheet; tests compare a few sheets.", "anchors": ["excel_file.py:_read", "excel_file.py:_write", "excel_file.py:_toDataFrame"]}
{"id": "C109", "title": "FAST input files: whole files with tables, lists and sections are written and read back", "statement": "Writing a FAST input file and reading it again gives the same entries in the same order: the ordinary lines, every table under its name with the number of rows that the file announces, its columns, units and values, the polars, the damping matrix, the lists of files, the list of output channels at the end, and the sections of a BeamDyn blade. A table whose number of rows is missing, is not a number, or is larger than the file is refused. Reading ends.", "quantifier": "every sequence of entries, any number of rows and columns, any mixture of tables, any list of files and of output channels, every key order that announces a number before its table", "why_tests_cant": "Where a table begins and ends is decided by keys read earlier; a table that takes one line too many or too few shifts everything after it, and the examples in the repository have one fixed order each.", "anchors": ["weio/fast_input_file.py:FASTInputFileBase._read", "weio/fast_input_file.py:FASTInputFileBase.toString", "weio/fast_input_file.py:parseFASTNumTable"]}
{"id": "C110", "title": "AeroDyn 14 airfoils: titles, values and polars of every table; they can be written", "statement": "Reading an AeroDyn 14 airfoil file gives its two titles, its twelve values and one table of polars with one row for each line up to the first blank line, with columns named after the tables of the file; a bad line is an error; and what was read can be written.", "quantifier": "every number of tables and their names, every number of rows, every text after the rows", "why_tests_cant": "The number of columns decides their names, and only one or two tables appear in the examples; nothing tests what writing does.", "anchors": ["weio/fast_input_file.py:FASTInputFileBase.detectAndReadAirfoilAD14", "weio/fast_input_file.py:FASTInputFileBase._write"]}
{"id": "C111", "title": "Blade and polar files are written consistently by their dedicated classes", "statement": "A FAST file that holds an AeroDyn blade, an ElastoDyn blade or an airfoil polar is recognised by its keys. Writing it sets the number of lines of every table to the size of the table, changes nothing else in the object, and writes the labels that the format expects even when there are several polars. A failed write leaves the object and the file as they were.", "quantifier": "every list of entries, every number of tables and rows, and both outcomes of opening the file", "why_tests_cant": "The tests write two or three example files whose counts are already right and never make a write fail.", "anchors": ["weio/fast_input_file.py:FASTInputFile.fixedFormat", "weio/fast_input_file.py:EDBladeFile._writeSanityChecks", "weio/fast_input_file.py:ADBladeFile._writeSanityChecks", "weio/fast_input_file.py:ADPolarFile._write"]}
{"id": "C112", "title": "Data frames of towers and blades contain the mode shapes", "statement": "The data frame of an ElastoDyn tower or blade has the columns of its table unchanged, followed by the mode shapes in their documented order, each one the polynomial of its five coefficients at the height or span fraction of the row.", "quantifier": "every table, every value of the coefficients and every order of the entries", "why_tests_cant": "The tests look at one blade and one tower and cannot tell two modes apart when their coefficients are similar.", "anchors": ["weio/fast_input_file.py:FASTInputFileBase._toDataFrame", "weio/fast_input_file.py:EDBladeFile._toDataFrame"]}
{"id": "C113", "title": "ExtPtfm superelement files survive writing and reading", "statement": "Reading an ExtPtfm file gives the dimension, the times, the three matrices and the loads that its blocks hold, in any order of blocks; writing and reading back gives the same numbers. A matrix of the wrong size, loads without times or an unexpected line are reported. The columns of the loads are all different.", "quantifier": "every sequence of blocks, every matrix and every number", "why_tests_cant": "The only test reads one example file; sizes, orders of blocks and numbers with long exponents are never varied.", "anchors": ["weio/fast_input_file.py:detectAndReadExtPtfmSE", "weio/fast_input_file.py:ExtPtfmFile"]}
{"id": "C114", "title": "A SubDyn file becomes a graph", "statement": "fastToGraph of a SubDyn file whose members refer to existing joints and properties returns a graph with one node per joint (ID, position, type, added mass matrix, interface and base flags) and one element per member (its two nodes, the properties of its kind and its type). The mass matrix gives the kinetic energy of the rigid body for every motion of the joint. A member that refers to a missing joint or property raises KeyError.", "quantifier": "all SubDyn tables: any numbers of joints, members, properties, masses, boundary conditions, with whole numbers as numbers or texts", "why_tests_cant": "Tests convert a few sample files and do not look at the matrix; the claim is about all tables and all motions.", "anchors": ["weio/fast_input_file_graph.py:fastToGraph", "weio/fast_input_file_graph.py:subdynToGraph", "weio/tools/graph.py:GraphModel"]}
{"id": "C115", "title": "A HydroDyn file becomes a graph", "statement": "fastToGraph of a HydroDyn file returns a graph with one node per joint (position, axial coefficients, and the simple coefficients if a member of the simple kind ends there) and one element per member (nodes, section properties, coefficient model, division size, potential flow flag), whatever tables of depth dependent, member based, filling and marine growth data the file has.", "quantifier": "all HydroDyn tables", "why_tests_cant": "The sample files used by tests have no rows in the other tables.", "anchors": ["weio/fast_input_file_graph.py:hydrodynToGraph", "weio/tools/graph.py:setElementNodalProp"]}
{"id": "C116", "title": "A SubDyn summary becomes a graph", "statement": "fastToGraph of a SubDyn summary returns a graph with one node per node of the summary (position, type, degrees of freedom) and one element per element (nodes, type, area, density, elastic moduli, diameter of the section), and one mode per Guyan and Craig-Bampton mode.", "quantifier": "all summaries with distinct node numbers and elements between existing nodes", "why_tests_cant": "Tests only check that the conversion does not raise.", "anchors": ["weio/fast_input_file_graph.py:subdynSumToGraph"]}
{"id": "C117", "title": "Tables and JSON of a graph are its nodes and elements", "statement": "nodalDataFrame has one row per node in order, with its ID, position and the numbers of its data, so that data that a node does not have can be told from a zero. toJSON has the positions of the nodes, for each element the positions in that list of its nodes, its type and diameter, and the lowest level.", "quantifier": "all graphs reached by any history of calls that respects C37's condition; all data of nodes and elements", "why_tests_cant": "The histories and data are unbounded; tests compare one or two outputs.", "anchors": ["weio/tools/graph.py:nodalDataFrame", "weio/tools/graph.py:toJSON"]}
{"id": "C118", "title": "CACTUS geometry file: the settings before the eleventh line", "statement": "Reading a CACTUS simulation whose geometry file has lines 'key : value ! comment' stores, for the lines that are not blank or comments, the lower-case key with the value as a number, as an array of numbers, or as the text; a line without a colon makes the reading fail; only the lines up to the point where the reader stops are used.", "quantifier": "every geometry file text, every assignment of numbers to texts", "why_tests_cant": "needs all texts of the lines and all line counts", "anchors": ["weio/cactus_file.py:CactusFile._read"]}
{"id": "C119", "title": "CACTUS time data: the columns of the blades are numbered", "statement": "When the CSV of the time data repeats the columns of a blade, the columns are renamed with the number of the blade, in order; the other names and all values stay; when the number of columns is not the one expected the names are kept. The four files of the simulation are found from the name of the input file, and missing CSV files leave the data empty.", "quantifier": "every table and number of blades, every set of files", "why_tests_cant": "needs every number of blades and every set of names", "anchors": ["weio/cactus_file.py:CactusFile._read"]}
{"id": "C120", "title": "CACTUS data frame: the OpenFAST columns of the rotor and of the blades", "statement": "toDataFrame puts in front of the columns of the time data the columns of OpenFAST (time, azimuth, wind, coefficients, forces, moments and power of the rotor, the nine of every blade, wind) in that order, with the values stated by the dimensional formulas; the columns of the file follow unchanged. Turning the axes keeps the resultant. It can be asked for as often as wanted.", "quantifier": "every simulation, table, number of blades and time steps", "why_tests_cant": "needs every number of rows and blades; a run only shows one table", "anchors": ["weio/cactus_file.py:CactusFile.timeDataToOpenFAST", "weio/cactus_file.py:CactusFile.toDataFrame"]}
{"id": "C121", "title": "CACTUS data frame: the columns of the elements of the blades", "statement": "For every element of every blade that has a row for each time step, in ascending order of blades and elements, toDataFrame adds its columns (angles of attack, coefficients, circulation, relative and induced velocities, dynamic stall when there is a table for it) with the values of the rows of this element, and nothing for the others; all names are different, and the other columns stay.", "quantifier": "every element table, every selection of blades and elements", "why_tests_cant": "needs all numbers of blades, elements and steps, and rows in any order", "anchors": ["weio/cactus_file.py:CactusFile.elemDataToOpenFAST", "weio/cactus_file.py:CactusFile.toDataFrame"]}
{"id": "C122", "title": "Points of a wind box", "statement": "For every TurbSim box and every location, closestPoint returns the indices of the lateral and vertical coordinates at the smallest distance, the first of those when several are as close, and valuesAt returns the three components at that point for all times, as stored; a location on the grid gives that very point. midValues returns the height of the grid point nearest to the middle of the box and the average in time of the first component there. hubValues(zHub) returns the height asked for, or the stored one, or the middle one, with the average of the first component at the nearest grid point. Any other interpolation method is refused.", "quantifier": "every box of consistent positive sizes, every location and height", "why_tests_cant": "the nearest point is a statement over all grids and locations, ties and locations outside the grid included; a test looks at one file", "anchors": ["weio/turbsim_file.py:TurbSimFile.closestPoint", "weio/turbsim_file.py:TurbSimFile.valuesAt", "weio/turbsim_file.py:TurbSimFile.hubValues", "weio/turbsim_file.py:TurbSimFile.midValues"]}
{"id": "C123", "title": "Probe files", "statement": "For every box and all lists of lateral positions and heights, writeProbes writes a comma separated table with the times and, for each combination in order, the three components at the nearest grid point, in columns named after that point. Two probes at different points have different names.", "quantifier": "every box, every lists of positions, every way of printing numbers", "why_tests_cant": "number, order and names of the columns depend on the lists and the grid", "anchors": ["weio/turbsim_file.py:TurbSimFile.writeProbes"]}
{"id": "C124", "title": "Grids and tables of a Mann box", "statement": "For every Mann box, z, y and t have as many values as the box has points and steps, equally spaced by the spacing, starting at the given first value or centred on the given middle (zero laterally), the times being multiples of dx/U; valuesAt returns the series of the nearest point of that grid; toDataFrame holds the profile over the heights at the middle lateral position, with deviation and intensity, and the series on three lines.", "quantifier": "every box, spacing, start, middle, speed", "why_tests_cant": "the number of values comes from an inclusive or exclusive end computed in floating point, which must be right for every size and spacing", "anchors": ["weio/mannbox_file.py:MannBoxFile.y", "weio/mannbox_file.py:MannBoxFile.z", "weio/mannbox_file.py:MannBoxFile.t", "weio/mannbox_file.py:MannBoxFile.valuesAt", "weio/mannbox_file.py:MannBoxFile.toDataFrame"]}
{"id": "C125", "title": "Conversions between TurbSim and Mann boxes", "statement": "For every box, toMannBox writes exactly three files, named after the given base (or the file name without its extension) and the three sizes, that a MannBoxFile reads back by name with the components in single precision, the constant or the averages in time being taken from the first component only. For all three boxes of one size, fromMannBox gives an object with these components (with addU added to the first), the given coordinates, times in multiples of dx/U, and the height and speed at the middle; fromMannBox with addU=a followed by toMannBox with removeUConstant=a gives back the boxes. Boxes that do not go together are refused.", "quantifier": "every box and file system, every constant, spacing, speed", "why_tests_cant": "covers every size and value, the order of axes in the file and what else is touched on disk", "anchors": ["weio/turbsim_file.py:TurbSimFile.fromMannBox", "weio/turbsim_file.py:TurbSimFile.toMannBox", "weio/mannbox_file.py:MannBoxFile.fromTurbSim", "weio/mannbox_file.py:MannBoxFile.write"]}
{"id": "C126", "title": "Scaling a wind box", "statement": "For every box, component and reference point (the middle or a location), scale(new_mean, new_std) changes that component only, so that at the reference point the average is new_mean and the deviation new_std, every other point keeping its difference of average with the reference point and having its fluctuations multiplied by the same factor.", "quantifier": "every box, component, reference, mean and deviation", "why_tests_cant": "an algebraic identity over all boxes", "anchors": ["weio/turbsim_file.py:TurbSimFile.scale"]}
{"id": "C127", "title": "Periodicity check", "statement": "For every box, checkPeriodic answers yes exactly when at every point the first and last values of the first component differ by less than sigmaTol deviations of that point, and the average over all points of that difference is less than aTol. A steady box is periodic.", "quantifier": "every box and tolerances", "why_tests_cant": "ranges over all boxes, with the largest and the average over all points", "anchors": ["weio/turbsim_file.py:TurbSimFile.checkPeriodic"]}
{"id": "C128", "title": "Tables of a TurbSim box", "statement": "For every box, toDataFrame holds the vertical profile (average in time and over the lateral positions of each component, their deviations and the intensity, by height) and the three components in time on the three lines at the height nearest to the middle: the middle position, the first and the last.", "quantifier": "every box of consistent positive sizes", "why_tests_cant": "which points are averaged and which lines are taken depend on the sizes", "anchors": ["weio/turbsim_file.py:TurbSimFile.toDataFrame", "weio/turbsim_file.py:TurbSimFile.vertProfile", "weio/turbsim_file.py:TurbSimFile.iMid"]}
{"id": "C129", "title": "Correlations in a wind box", "statement": "For every box and reference point, crosscorr_y and crosscorr_z give at each lateral position (each height) the correlation coefficient of the time series of that point with that of the reference point, for each of the three components; the coefficient is between -1 and 1 and is 1 with itself. The two tables of toDataFrame are those of the point nearest to the middle of the box.", "quantifier": "every box of consistent positive sizes, every reference point", "why_tests_cant": "an inequality (Cauchy-Schwarz) over all series of all lengths", "anchors": ["weio/turbsim_file.py:TurbSimFile.crosscorr_y", "weio/turbsim_file.py:TurbSimFile.crosscorr_z", "weio/turbsim_file.py:TurbSimFile.toDataFrame"]}
{"id": "C130", "title": "Planes of a wind box", "statement": "For every box, horizontalPlane (verticalPlane) gives the three components on the plane of the index asked for, or else of the height (position) nearest to the one asked for, or else of the middle, less the average of each component on the plane when asked; asking does not change the box. An index outside of the box is an error.", "quantifier": "every box, plane, and way of asking for it", "why_tests_cant": "ranges over all boxes, and states what must not change", "anchors": ["weio/turbsim_file.py:TurbSimFile.horizontalPlane", "weio/turbsim_file.py:TurbSimFile.verticalPlane"]}
{"id": "C131", "title": "RAAW Matlab files", "statement": "For every list of signals in a RAAW file, the tables hold each signal under its name at its sampling rate (50 Hz or 1 Hz), missing samples at the end being not-a-number, with the times counted from the date of the file; the other rates are left out; a signal that is too long is an error. A missing file, an empty one and a file without signals are refused, reading again after an error keeps the data, writing is refused and leaves the disk alone.", "quantifier": "every list of signals, every disk and history", "why_tests_cant": "ranges over all lists of signals, lengths and states of the object", "anchors": ["weio/raawmat_file.py:RAAWMatFile", "weio/raawmat_file.py:matfile"]}
{"id": "C132", "title": "Self tests of a file object", "statement": "For every class and every object with a name, test_write_read writes to a temporary name beside the file, reads it back and touches nothing else on the disk; test_ascii passes exactly when what was written compares equal to the file, removes its temporary files when it passes and is asked to, and never removes or changes the file itself; afterwards the object is usable as before. A failure of the writer or the reader is reported as an Exception with the message.", "quantifier": "every class (reader and writer), disk, object and option", "why_tests_cant": "ranges over all readers, writers and disks, and states what must not change", "anchors": ["weio/file.py:File.test_write_read", "weio/file.py:File.test_ascii", "weio/file.py:ascii_comp"]}
{"id": "C133", "title": "Data frames of AeroDyn blades", "statement": "The data frame of an AeroDyn blade file is its table of nodes followed, on each row, by the approximate offsets of the mid chord and the position of the aerodynamic centre: the centre goes linearly from half the chord at the root to a quarter of the chord over the first 15% of the nodes and stays there, and the offsets are those of the node moved by the chord times the distance from the centre to mid chord, along the direction given by the twist. Fewer than six columns raise IndexError.", "quantifier": "all blade files with one table of any number of nodes and columns", "why_tests_cant": "the rule for the root region depends on the number of nodes through a truncated product; each case is a different branch", "anchors": ["weio/fast_input_file.py:ADBladeFile._toDataFrame", "weio/fast_input_file.py:FASTInputFileBase._toDataFrame"]}
{"id": "C134", "title": "Data frames of airfoil polars", "statement": "The data frame of each table of a polar file has the table itself and, on each row, the normal coefficient, the same without the drag at zero lift, and the linear potential-flow coefficient between -20 and 30 degrees (not a number outside); a further column marks the points around alpha2, alpha1 and alpha0 exactly when all three angles exceed some angle of the table. With several tables each one uses the parameters with its own suffix.", "quantifier": "all polar files with any number of tables, rows, columns and any values of the parameters", "why_tests_cant": "the positions depend on comparisons of every angle with every parameter, and the parameters on the suffix of each table", "anchors": ["weio/fast_input_file.py:ADPolarFile._toDataFrame"]}
{"id": "C135", "title": "Comments of FAST input files", "statement": "The comment of a blade file is its second line: setting it replaces that line only, and reading it gives back what was set when it has one line. Setting the comment of a polar replaces its remark lines among the second to the fourth line, in order, and nothing else. The keys leave the comment lines out. The same holds through FASTInputFile, and for an ElastoDyn blade opened by its own class.", "quantifier": "all files of the three dedicated formats and of other formats, all comment texts with any number of lines", "why_tests_cant": "the effect depends on which lines are remarks, on the number of lines of the text and on earlier settings", "anchors": ["weio/fast_input_file.py:FASTInputFileBase.comment", "weio/fast_input_file.py:ADPolarFile.comment", "weio/fast_input_file.py:FASTInputFile.comment", "weio/fast_input_file.py:FASTInputFileBase.keys", "weio/fast_input_file.py:EDBladeFile.__init__"]}
{"id": "C136", "title": "Empty FAST blade and polar files", "statement": "An empty polar with n tables has the general keys once and then, for each table, its Reynolds number, control setting, flag and parameters of unsteady aerodynamics, number of rows and table with no row, under names with the suffix of the table when n is not 1; no name is shared by two tables. Empty blades have their parameters and an empty table, and can be written.", "quantifier": "all numbers of tables, with and without unsteady data", "why_tests_cant": "the number of tables is unbounded and a later table may overwrite a line of an earlier one", "anchors": ["weio/fast_input_file.py:ADPolarFile.__init__", "weio/fast_input_file.py:ADBladeFile.__init__", "weio/fast_input_file.py:EDBladeFile.__init__", "weio/fast_input_file.py:FASTInputFileBase.addKeyVal"]}
{"id": "C137", "title": "Files included in HTC files", "statement": "Reading an HTC file replaces each line continue_in_file by the text of the file that it names, up to the line exit of that file, and so on inside the included files; the object is the one of the resulting text, and lists the included files. The file is looked for in the model directory, or in the directory of the HTC file and its three parents when the model directory is unknown.", "quantifier": "all sets of files with any text, any depth and number of inclusions, all model directories", "why_tests_cant": "the inclusions nest without bound and may be circular, and the place of a file depends on what each directory holds", "anchors": ["weio/wetb/hawc2/htc_file.py:HTCFile.readlines", "weio/wetb/hawc2/htc_file.py:HTCFile._load", "weio/wetb/hawc2/htc_file.py:HTCFile.readfilelines"]}
{"id": "C138", "title": "Paths in any case", "statement": "Looking for a path whose letters may have another case gives a path that exists and differs from it by the case only, the given path itself when it exists, and the same path again when it is applied twice.", "quantifier": "all directory trees, all absolute paths of any depth", "why_tests_cant": "the trees are unbounded and a component may match several names", "anchors": ["weio/wetb/hawc2/htc_file.py:unix_path"]}
{"id": "C139", "title": "Naming an HTC simulation", "statement": "Setting the name of a simulation makes its log file, animation, visualization, results and HTC file carry this name in the folders log, animation, visualization, res and htc and the given subfolder, and changes nothing else of the file; simulations with different names write different files.", "quantifier": "all HTC contents, names, subfolders of any depth and model directories", "why_tests_cant": "what may change is every other entry of a file of any size, and the names are arbitrary", "anchors": ["weio/wetb/hawc2/htc_file.py:HTCFile.set_name"]}
{"id": "C140", "title": "Times of an HTC simulation", "statement": "Setting the start, stop or time step changes the stop time, the time step, the period of the output and the start of the wind accordingly, whichever are given, keeps the others and changes nothing else; the output ends with the simulation.", "quantifier": "all HTC contents, all combinations of the three arguments, for HAWC2 and for aerodynamic simulations", "why_tests_cant": "the combinations of arguments and contents are unbounded and everything else must be kept", "anchors": ["weio/wetb/hawc2/htc_file.py:HTCFile.set_time", "weio/wetb/hawc2/htc_file.py:H2aeroHTCFile.set_time"]}
{"id": "C141", "title": "Lists of the files of an HTC simulation", "statement": "The lists of result, turbulence and output files hold exactly the files that the contents name: two files per output, or one or two according to its format; the turbulence files of the Mann or Flex section according to the format of the turbulence; the log, animation, analysis, export and result files with their names.", "quantifier": "all HTC contents with any number of outputs, all formats", "why_tests_cant": "the number of outputs is unbounded and each line may be missing, empty or a number", "anchors": ["weio/wetb/hawc2/htc_file.py:HTCFile.res_file_lst", "weio/wetb/hawc2/htc_file.py:HTCFile.turbulence_files", "weio/wetb/hawc2/htc_file.py:HTCFile.output_files"]}
{"id": "C142", "title": "Comparing HTC files", "statement": "The comparison of two HTC files is empty exactly when they have the same sections and lines with the same values and sensors, whatever the order of the items and the comments, and otherwise reports each difference once: the items of the first file that the other lacks, those that differ, and those that only the other has.", "quantifier": "every pair of HTC trees, with sections at any depth and any sensors", "why_tests_cant": "the pairs of trees are unbounded; that no difference is missed is a statement about all of them", "anchors": ["weio/wetb/hawc2/htc_contents.py: HTCContents.compare, HTCLine.compare, HTCOutputSection.compare, HTCSensor.compare", "weio/wetb/hawc2/htc_file.py: HTCFile.compare"]}
{"id": "C143", "title": "Finding an item of an HTC file", "statement": "An item of an HTC file is found by its key, by a path of keys joined by . or /, and by the value of one of its lines; a lookup by value gives the one item with that value and is refused when there is none or there are several.", "quantifier": "every HTC tree, every key, path and value", "why_tests_cant": "uniqueness and reachability range over all trees", "anchors": ["weio/wetb/hawc2/htc_contents.py: HTCContents.__getitem__, HTCContents.get, HTCContents.__call__, HTCSection.get_section, HTCSection.get_element"]}
{"id": "C144", "title": "Sections of a body of an HTC file", "statement": "The table of a body has one row of five numbers for each of its section lines, ordered by section number; setting a table changes the section lines and their number accordingly, keeps everything else, and what is read afterwards is the table that was set.", "quantifier": "every body with any number of sections in any order and every table", "why_tests_cant": "the tables and the files are unbounded", "anchors": ["weio/hawc2_htc_file.py: HAWC2HTCFile.bodyC2, HAWC2HTCFile.setBodyC2"]}
{"id": "C145", "title": "Bodies of an HTC file", "statement": "Every main body of an HTC file is listed and found by its name, an unknown name is refused, and the data frames of the file are the sections of each body (position and twist) and the set of the structural file it refers to.", "quantifier": "every HTC structure with any number of bodies, every structural file", "why_tests_cant": "the numbers of bodies and files are unbounded", "anchors": ["weio/hawc2_htc_file.py: HAWC2HTCFile.bodyDict, bodyNames, bodyByName, _toDataFrame"]}
{"id": "C146", "title": "Adding Mann turbulence to an HTC file", "statement": "Adding a Mann turbulence box to an HTC file sets the turbulence format, the box parameters, the three file names and, for each direction, the number of points and the spacing (length over number); options that are not asked for are removed; lines that existed keep their name and comment and nothing else in the file changes; adding the same box twice gives the same file; number times spacing is the length asked for; a call that fails leaves the file as it was.", "quantifier": "every HTC content whose wind and mann items are sections, every set of parameters, file names that are words, sizes, spacings and options", "why_tests_cant": "Tests use one template file; the claim is about every existing content and every combination of options, and about what is not changed.", "anchors": ["weio/wetb/hawc2/htc_extensions.py:HTCDefaults.add_mann_turbulence", "weio/wetb/hawc2/htc_contents.py:HTCContents.__setattr__"]}
{"id": "C147", "title": "Exporting turbulence from an HTC file", "statement": "Asking for exported turbulence adds one new section to the wind section, with the three files, the sampling (the number asked for, or as many steps as give the spacing of the box, at least one), the start of the output or 0, the number of time steps of the simulation and the lateral sizes of the box; nothing else changes, whether or not an export exists already; the number of steps is a whole number; a refused call leaves the file as it was; the files are listed among the output files.", "quantifier": "every HTC content, file name pattern with one placeholder, sampling, time step, start and end", "why_tests_cant": "Depends on all existing sections, including earlier exports, on all numeric values, and on failures in the middle of the call.", "anchors": ["weio/wetb/hawc2/htc_extensions.py:HTCDefaults.add_turb_export", "weio/wetb/hawc2/htc_file.py:HTCFile.output_files"]}
{"id": "C148", "title": "Controller gains, water properties and shear of an HTC file", "statement": "Importing a controller tuning file writes the seven gains as second values of the constants 11, 12, 13, 16, 17, 21, 22 of the first DTU controller and changes nothing else; adding water properties sets the four values and nothing else; the shear function of the file gives the wind speed for a constant shear and the power law for a power shear.", "quantifier": "every HTC content, every tuning file of the documented layout, every number and every height", "why_tests_cant": "The lookup of the controller depends on all dlls of the file and the assignment on all its constants; tests use one controller.", "anchors": ["weio/wetb/hawc2/htc_extensions.py:HTCDefaults.import_dtu_we_controller_input", "weio/wetb/hawc2/htc_extensions.py:HTCDefaults.add_hydro", "weio/wetb/hawc2/htc_extensions.py:HTCExtensions.get_shear"]}
{"id": "C149", "title": "The input files of an HTC simulation", "statement": "input_files lists exactly the files that an HTC file names, and the file itself with the files it includes: the structure, the aerodynamics, each library with its 64 bit version, the wind, the water, the soil, the pitch table of the controller when it is used, and the library of forces. A name is given the case that it has on the disk and made relative to the model, or kept when it is not found. If each named file has a place, the list is given. The files of the wakes are taken from the wind section, whatever the wakes section says; one absolute name that is not found, a number in place of a name, or a line with too few values, and there is no list; a file named in two ways is listed twice.", "quantifier": "every contents of an HTC file, every name, model path, file system and order of sets", "why_tests_cant": "A test has one model in which all the files are there; a file that is left out is only missed when the model is copied to another machine.", "anchors": ["weio/wetb/hawc2/htc_file.py:HTCFile.input_files", "weio/wetb/hawc2/htc_contents.py:HTCContents.get"]}
{"id": "C150", "title": "Running a simulation of an HTC file", "statement": "simulate saves the file before the program is run, runs it at most once and in the model directory, and returns only if the error code is zero and the log tells the elapsed time; otherwise the caller is told the code, the output and the lines of the log near each error and at its end. When skipping is allowed a run is skipped only if the results are later than the file and the program and the file on the disk is the one that would be written. In this package the function that runs programs is not imported, so that no simulation returns; a skipped run fails; a path that is separated by colons is not searched; the dots of the report are one line too early.", "quantifier": "every text, path, time of files, program output and log", "why_tests_cant": "Whether old results are taken for new ones depends on the times and texts of three files; a test has one program, one log and one order of events.", "anchors": ["weio/wetb/hawc2/htc_file.py:HTCFile._simulate", "weio/wetb/hawc2/htc_file.py:HTCFile.simulate", "weio/wetb/hawc2/htc_file.py:HTCFile.simulate_hawc2stab2"]}
{"id": "C151", "title": "Places, copies and deletion of the objects of an HTC file", "statement": "The location of an object is the name of its file and the keys that lead to it, and these keys, with slashes or dots, give the object back. An object that is added comes last under a free key and knows its parent; deleting it takes it out of its parent, under whatever keys, and changes nothing else. A copy is like the original to any depth, shares no object with it and leaves it as it was. But what is in a copy does not know its parent: it cannot be deleted or located, and a value it does not have raises TypeError instead of IndexError; an object that is in two sections is deleted from the last only; sensors have no location; a key that leads through a line raises TypeError.", "quantifier": "every heap of objects, path, key and depth", "why_tests_cant": "It depends on which objects are shared and in what order they were added and copied; a test builds one small file.", "anchors": ["weio/wetb/hawc2/htc_contents.py:HTCContents.location", "weio/wetb/hawc2/htc_contents.py:HTCContents.delete", "weio/wetb/hawc2/htc_contents.py:HTCContents._add_contents", "weio/wetb/hawc2/htc_contents.py:HTCSection.copy", "weio/wetb/hawc2/htc_contents.py:HTCLine.copy"]}
{"id": "C152", "title": "Sections that are added to an HTC file", "statement": "add_section adds a new section behind everything its parent has, under its name or the name with the first free number, holding the keyword arguments and members in their order, a member overriding the keyword argument of the same name; a section that is passed is added with all it has; nothing the parent had changes, and texts, numbers and lists never replace what a section has. (False in part: an existing name drops all arguments in silence, output sections that are passed are emptied, output_at_time sections are refused or added again and again, and a failing call leaves the section behind.)", "quantifier": "every content of the parent, every name or section passed, and every list of keyword arguments and members", "why_tests_cant": "the names, sections and arguments are unbounded in number and length, and the rule must hold for each combination", "anchors": ["weio/wetb/hawc2/htc_contents.py:HTCContents.add_section", "weio/wetb/hawc2/htc_contents.py:HTCSection.__setitem__"]}
{"id": "C153", "title": "The model folder and batch job of an HTC file", "statement": "The model folder of an HTC file always ends with a slash or is 'unknown'; a given absolute folder is used as it is, a given relative one is taken from the folder of the file, and otherwise the folder is the one, of the file's own and the three above, where most of the relative input files are, the nearest of those; the detection fails exactly when none of them is found. A batch job has the given or own files and the turbulence files that were asked for. (False in part: no batch job can be made, a single flag is ignored, the caller's lists are changed, and a file with only absolute input files cannot be opened without a folder.)", "quantifier": "every file name, list of input files, given folder, content of the disk, and every list of files and flags", "why_tests_cant": "the disk and the lists of files are arbitrary, and ties and missing files must be decided the same way for all", "anchors": ["weio/wetb/hawc2/htc_file.py:HTCFile.__init__", "weio/wetb/hawc2/htc_file.py:HTCFile.auto_detect_modelpath", "weio/wetb/hawc2/htc_file.py:HTCFile.pbs_file"]}
{"id": "C154", "title": "Values along the blade and tables of AE and PC files", "statement": "Chord and thickness at a radius are those of the row of the file at that radius, lie on the straight line between the rows around it and are those of the first and last row beyond the ends; without a radius whole columns are given, and an unknown set is a KeyError. The nearest radius is the first nearest one. The set of profiles at a radius is that of a row nearer than a ten thousandth of the greatest radius, and otherwise that of the row before. The tables of an AE file are its sets in the order of their numbers, and those of a PC file its polars. (False in part: radius zero counts as none, an AE file whose sets are not numbered one, two, ... has no tables, and of polars with one set and thickness only the last has a table.)", "quantifier": "every collection of sets, every table, radius and set number, and every formatting of numbers", "why_tests_cant": "numbers and tables are unbounded, and ties, boundaries and gaps in the numbering must be decided the same way for all", "anchors": ["weio/wetb/hawc2/ae_file.py:AEFile.chord", "weio/wetb/hawc2/ae_file.py:AEFile.thickness", "weio/wetb/hawc2/ae_file.py:AEFile.radius_ae", "weio/wetb/hawc2/ae_file.py:AEFile.pc_set_nr", "weio/hawc2_ae_file.py:HAWC2AEFile.toDataFrame", "weio/hawc2_ae_file.py:HAWC2AEFile.sets", "weio/hawc2_pc_file.py:HAWC2PCFile.toDataFrame"]}
{"id": "C155", "title": "Lift of PC files on whole degrees", "statement": "The lift computed in the way of HAWC2 equals the lift at every whole degree from -180 to 179, lies on the straight line between these in between, is that at -180 degrees below, and fails exactly when the lift does, with the same exception. (False as an equality of the two lifts: corners of the polar between whole degrees are cut off, and above 179 degrees the lift at 179 is given.)", "quantifier": "every collection of sets, thickness, angle and set number", "why_tests_cant": "tables, thicknesses and angles are arbitrary numbers; the grid must agree with the polar at every whole degree for all of them", "anchors": ["weio/wetb/hawc2/pc_file.py:PCFile.CL_H2", "weio/wetb/hawc2/pc_file.py:PCFile.CL"]}
{"id": "C156", "title": "Parquet and NetCDF files keep their data through other libraries", "statement": "Reading gives the data of the library whatever was read before; it fails exactly for a missing name, a missing, empty or undecodable file, or keyword arguments, and then keeps the data. Writing changes only its file, a failed write changes none, and data that the library restores come back. Objects without file raise AttributeError. The tables of a NetCDF file are its variables with one or two dimensions. (False in part: after a failed read, writing replaces the unreadable file by the earlier data, and other variables are dropped in silence.)", "quantifier": "every library (decoder and encoder), content of the disk, object, name and data set", "why_tests_cant": "the library and the disk are arbitrary, and failures and histories of reads and writes are unbounded", "anchors": ["weio/parquet_file.py:ParquetFile", "weio/netcdf_file.py:NetCDFFile", "weio/file.py:File.read", "weio/file.py:File.write"]}
{"id": "C157", "title": "Sets of HTC files and their batch jobs", "statement": "A set of HTC files has, for each entry of its list and in this order, the file of that name if there is one and otherwise all files that match it, relative entries being taken from the model folder; a single text is a list of one, and by default all .htc files below the folder are taken. Saving the batch jobs makes each job from the lists of the caller after the one before was saved, never changes these lists, and stops at the first job that cannot be made or saved, with its exception, the jobs before it saved and none after it. (False in part: a name that exists in the working directory is taken from there and not from the model folder, tuples of names are a TypeError, files that two entries stand for are there twice, and no set with files can save any job.)", "quantifier": "every file system, model folder, list of names, lists of files and behaviour of making and saving jobs", "why_tests_cant": "file systems, patterns and the points at which making or saving fails are arbitrary", "anchors": ["weio/wetb/hawc2/htc_file_set.py: HTCFileSet"]}
