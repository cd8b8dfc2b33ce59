# Formal model of mcpevent2hist (Sophiread) in Rocq

Everything below is about `/repo` (ornlneutronimaging/mcpevent2hist), read as text.
Coq 8.16.1; the only non-stdlib library used is Flocq 4.1.0 (IEEE-754 doubles).

## 1. Layout

`rocq/theories/`

| prefix | content |
|---|---|
| `Base.v`, `F64.v` | data types shared by all models: outcomes, bytes, machine words, doubles. Definitions only. |
| `M_*.v` | the model, function by function. Definitions only; every definition cites file and lines. |
| `S_*.v` | specifications: small, independent of the model helpers (arithmetic with `/` and `mod`, declarative predicates). |
| `P_*.v`, `*Facts.v` | lemmas and proofs. |
| `Properties_*.v` | the property theorems only, each closed with `exact`, followed by an `Example` showing that the hypotheses are met by a non-trivial case, and `Print Assumptions`. |
| `Tests_Repo.v` | the unit tests of the repository, run on the model (section 7). |

## 2. Conventions of the model

* Bytes are `Z` in `0..255`; a buffer is `list Z`. `unsigned` types are `Z` with explicit `mod 2^16/2^32/2^64`.
* Machine: LP64 little endian (`unsigned long` 64 bit), plain `char` signed (x86-64 Linux; on arm64 Linux plain `char`
  is unsigned, there the chip id is never negative).
* Undefined behaviour is an outcome (`UB reason`), as is an exception (`Throw`). An uninitialised field is `None`.
* Doubles are Flocq `binary_float 53 1024` with round-to-nearest-even, one rounding per source operation.
  **The project is compiled with `-ffast-math`** (`sophiread/CMakeLists.txt:64`), which permits the compiler to
  reassociate and to assume that NaN and infinity do not occur. The model is of the source program under strict IEEE
  semantics; claims that rest on NaN checks are therefore only claims about a build without that flag. For the
  centroid of a cluster C100 shows that reassociation changes nothing and the reciprocal stays within the same error.
* A TBB `parallel_for`/`parallel_reduce` is modelled as an arbitrary partition of the index range and an arbitrary
  order of execution of the index tasks; each task is atomic (tasks write only their own batch).
* Files, HDF5, TIFF and directories are abstract stores (association lists) with the operations the code performs.

## 3. Trusted base

* Coq's kernel, and for each theorem the axioms shown by its `Print Assumptions` (printed in `Properties_*.v` right
  below the theorem). Theorems that mention doubles through real numbers depend on the standard axioms of `Coq.Reals`
  and `Coq.Logic` (`ClassicalDedekindReals.sig_forall_dec`, `ClassicalDedekindReals.sig_not_dec`,
  `FunctionalExtensionality.functional_extensionality_dep`, `Classical_Prop.classic`); all others are closed under the
  global context. There are no axioms of our own and none from other libraries.
* The faithfulness of the reading of the source, definition by definition (citations in the model files).
* C++ implicit conversions as written in the model comments.
* External code, taken as a parameter or as an assumption (nothing is assumed about a parameter unless a theorem says so):

| external | how it appears |
|---|---|
| `log`, Eigen QR least squares | functions in the record `externals`; arbitrary |
| TBB `parallel_for`, `parallel_reduce` | arbitrary partition and order of atomic index tasks (`M_Parallel`) |
| `std::lower_bound`, `std::sort`, `std::round` | modelled (binary search; insertion sort; half away from zero) |
| HDF5 library | store of groups and columns; the fault of each call is an oracle (`M_Hdf5`) |
| TinyTIFF/libtiff, file system | store of files; which names are writable is an oracle (`M_Tiff`) |
| `getopt`, `std::stoull` | parsed options are the input; number parsing is an oracle (`M_Cli`) |
| stream extraction of `double`, JSON parser | oracles (`M_Config`); extraction of words and `int`, `getline`, and the nlohmann::json accessors `contains`, `value`, `get` are modelled |
| mlpack DBSCAN, `std::sort` of cluster infos | functions in the record `dbs_ext`; assumed where stated (`ext_sound` in `S_Dbscan`): labels are SIZE_MAX or numbers of non-empty clusters, each with a centroid; times of one cluster are linked; the sort yields an ordered permutation. `P_DbsInst` has an instance. For C98 in addition (`fit2_finds` in `S_DbsEvents`): pixels joined by steps of at most epsilon, each with the minimal number of others within epsilon, form one cluster and its centroid is their correctly rounded mean; `P_DbsComps` has an instance |
| `find`, `diff`, `h5diff` in benchmark.sh | parameters `find` and `same`; assumed where stated: the list has each existing file of the kind once (`lists`), equal files compare equal, and diff tells different texts apart (`tells_texts`) |
| microsecond clock, path decomposition | arguments (`M_Hdf5`) |

## 4. What is modelled

| model | source | properties |
|---|---|---|
| `M_Hit` | FastSophiread hit.cpp 24-158, hit.h 77-106 | C01-C06, C45 |
| `M_Neutron` | neutron.h | used by others |
| `M_Tpx3` | FastSophiread tpx3_fast.cpp (headers, GDC/TDC updates, timestamp update, packet extraction), tpx3_fast.h | C07-C15, C18-C20, C112, C113, C114, C115, C116 |
| `M_Core` | sophiread_core.cpp timedFindTPX3H, timedLocateTimeStamp, timedProcessing (sequential), resumable discovery loops | C14, C16, C18-C20 |
| `M_Abs` | abs.cpp (fit, get_events, reset, set_method) | C21-C25, C87, C100, C103, C105, C106, C112, C116 |
| `M_Centroid` | centroid.cpp, fastgaussian.cpp | C24, C26, C76, C100, C103, C106 |
| `M_Parallel` | the parallel loops of timedProcessing and timedCreateTOFImages | C17 |
| `M_Tof` | sophiread_core.cpp initialize/update/timedCreateTOFImages, calculateSpectralCounts, writeSpectralFile | C27-C30, C107, C109, C111 |
| `M_Tiff` | sophiread_core.cpp timedSaveTOFImagingToTIFF | C30, C31, C107, C117 |
| `M_Hdf5` | disk_io.cpp 30-435, 499-650 | C32, C33, C46 |
| `M_Cli` | disk_io.cpp 437-497 (chunk reader), sophiread.cpp 87-375 | C34, C35, C47, C48, C75, C110, C113, C114, C115, C117 |
| `M_Gdc` | gdc_processor.cpp 17-80, gdc_extractor.cpp 23-141, main_gdc_extractor.cpp 28-84 | C36, C37, C49, C101 |
| `M_Venus` | venus_auto_reducer.cpp 28-110, 122-264, disk_io.cpp 24-49 | C38, C39, C50, C95, C108 |
| `M_Config` | user_config.cpp 22-139, user_config.h, json_config_parser.cpp 17-116, json_config_parser.h, tof_binning.h, sophiread.cpp 191-213, venus_auto_reducer.cpp 247-256 | C40, C41, C51, C52 |
| `M_Lib` | SophireadLib tpx3.cpp 49-627 (decoding), tpx3.h | C43, C53-C57 |
| `M_StreamCli` | SophireadStreamCLI sophiread_stream.cpp 16-191, SophireadLib abs.cpp 17-169, abs.h, centroid.cpp, fastgaussian.cpp (as `M_Centroid` with factor 1.0), tpx3.cpp 716-719 | C42, C58, C59, C96 |
| `M_Dbscan` | SophireadLib dbscan.cpp 6-323, dbscan.h 7-53 | C44, C60-C63, C98, C100 |
| `M_Display` | sophiread_display mainwindow.cpp 27-174, 181, 192-195, 266-268, 294-295, hit_worker.cpp 20-21, 43-208, mainwindow.h 18-42 | C64-C69, C97 |
| `M_DisplayWin` | sophiread_display mainwindow.cpp 177-367, hit_worker.cpp 149 | C79, C97 |
| `M_LibIO` | SophireadLib tpx3.cpp 629-801, tpx3.h | C72, C73 |
| `M_Gui` | SophireadGUI mainwindow.cpp 29-241, mainwindow.h 36-57 | C70, C71, C74 |
| `M_Cam` | resources/manufacture/tpx3cam.cpp 20-210, SophireadLib tests/generate_fake_tpx3_data.cpp | C77, C78, C101 |
| `M_Mmap` | FastSophiread benchmarks/benchmark_mmap.cpp 46-471, disk_io.cpp 57-121 (which files can be opened) | C80, C102 |
| `M_Program` | sophiread.cpp 163-383 (main, with `M_Cli`, `M_Config`), json_config_parser.cpp 58-118 (without bin edges) | C81, C103, C104, C105, C106, C107, C108, C109, C110, C111, C112, C113, C114, C115, C116, C117 |
| `M_GdcMain` | main_gdc_extractor.cpp 28-110, gdc_extractor.cpp 23-141 (text and output file) | C82 |
| `M_VenusMain` | venus_auto_reducer.cpp 122-274 (main and monitoring, with `M_Venus`) | C83 |
| `M_StreamMain` | sophiread_stream.cpp 167-191 (main, with `M_StreamCli` and `M_LibIO`) | C84, C96 |
| `M_Bench` | FastSophiread benchmarks/benchmark_raw2hits.cpp 22-98, benchmark_raw2events.cpp 27-247; sophiread_core.cpp 184-224 | C85, C86, C102 |
| `M_Fake` | FastSophiread benchmarks/benchmark_hits2events.cpp 22-68, SophireadLib benchmarks/benchmark_abs.cpp 36-96, benchmark_abs_thread.cpp 37-94 | C88 |
| `M_Text` | `operator<<` for double (%.6g); sophiread_core.cpp 614-620, benchmark_mmap.cpp 117-124 as text | C89 |
| `M_Version` | sophiread scripts/version.sh 61-262, include/version.h 19-21 | C94 |
| `M_BenchSh` | FastSophiread benchmarks/benchmark.sh 16-94 (with `M_Mmap`) | C99 |

MANIFEST.json gives the theorem names per property; every theorem is in the `Properties_*.v` file of its model.

### Simplifications

* Logging, timing, progress output and counters that are only logged are left out everywhere.
* Allocation never fails; `int` counters of clusters and hits in the clustering object are unbounded.
* `M_Tpx3`: the loops carry a `size_t` position; lengths are below 2^63, so position arithmetic does not wrap.
* `M_Abs`: the labels, cluster index lists and rotating slots are modelled; the order of floating point operations is
  that of the source.
* `M_Centroid`: the least squares solution of fast Gaussian fitting is an oracle.
* `M_Parallel`: one index task is atomic. Tasks write only their own batch; the histogram loop is modelled as the
  source has it (one local image set per range, summed at joins).
* `M_Tiff`: reading an existing image either yields an image of the right size or fails; bins are saved in an arbitrary
  order, each atomically.
* `M_Hdf5`: a file is a list of groups, a group a map from column names to columns of doubles; types of columns are not
  modelled (all columns are written from doubles or integers stored as doubles). Errors of `H5Lexists` are not modelled.
  `H5::Exception` does not derive from `std::exception`, so an HDF5 error outside the try blocks of `disk_io.cpp` ends
  the program; in `M_Cli` the library does not fail.
* `M_Cli`: the configuration has been loaded (see C40, C41); processing is sequential, which C17 justifies.
* `M_Gdc`: writing lines to the open CSV file does not fail; the answers of the file system during validation are an
  input.

* `M_Venus`: the directory listing does not fail; what is listed in each round, the content of each file when it is read,
  the order in which bins are written and whether an exception interrupts them are arbitrary inputs. `v_log` is a ghost
  record of what happened, used by the statements only. `exit()` inside the raw file reader is the ending `EndExit`.

* `M_Config`: the bin edges are computed when the configuration is loaded (the source does so when the images are set
  up; an exception ends the program either way). `load_config` is `main` up to the opening of the raw file; `run_main` in
  `M_Cli` continues from there.

* `M_Lib`: an iterator is the list of bytes from it to the end; moving an iterator beyond the end is not itself counted as
  undefined, reading there is. The leak of the two heap counters is ignored.

* `M_StreamCli`: memory is sequentially consistent and the queue is a list; the plain `bool done` is a data race in the
  source, which the model does not count as undefined. One step is one line of a thread; the processing of a batch is
  part of the step that completes it. The arrays declared inside the loops are indeterminate in each iteration
  (`keep = false`) or keep their content (`keep = true`, what compilers usually do); theorems say which. What happens
  after `saveEventsToHDF5` has accepted the events is not part of it.

* `M_Dbscan`: assertions and verbose output are left out; iterations of mlpack and its parameters beyond epsilon and the
  minimal number are part of the oracle.

* `M_Display`: the threads are interleaved line by line over sequentially consistent memory; the plain `int` indices of
  the ring and `killthread` are data races in the source, which the model does not count as undefined. The clustering of
  a hit is part of the step that uses it (it touches nothing shared but the slot). Sine and cosine of the mounting angle
  are an arbitrary pair (`rotation`), finite and at most 1 where a theorem says so. Counters that are only shown, the
  image as an array (the model lists the pixels incremented) and the plot are left out. Each file is read after the
  previous one has been finished, which the timer test in `handlereadfile` enforces.

* `M_LibIO`: a file is a list of groups with datasets of integers or doubles; the HDF5 library is the oracle `h5lib`, which
  says whether opening, making the group and writing each dataset succeeds. All hits made by this library have a time of
  flight (C43), which saving requires. Conversion of text to a double is an oracle, as in `M_Config`.

* `M_DisplayWin`: a step is an action of the user, a tick of the timer, or a step of a thread as in `M_Display`. The entries
  that the reading thread makes in `mytofhisto` are visible only once it has ended, so they are entered at once; a file
  whose reading is undefined is undefined when its reading starts. The counts of the image are exact integers (doubles
  below 2^53). What an earlier file has left in the ring counts as indeterminate (C69 shows that it is never used). The
  end of the worker and its assignment of `clusterparsedone` are one step. `delete` of arrays made by `new[]`
  (mainwindow.cpp:238, 244, 366, hit_worker.cpp:205), formally undefined, is taken as harmless.
  QtConcurrent has a thread for both functions (with a pool of a single thread the worker would keep the reader from
  starting).
* `M_Gui`: one action is one slot run by the event loop. `my2dhisto` is the list of the entries incremented; it is the data
  of `vhisto`, which Qt shares with the raster data of the plot (writing through the kept pointer), so drawing is left out.
  The elapsed time shown by the timer comes from a clock that is never started and is left out. Image files and HDF5 files
  are separate name spaces. Sine and cosine of -1 degree are an arbitrary pair. An exception that leaves a slot ends the
  program. The atomic increments of the parallel loop commute.

* `M_Cam`: the loop over packets is one pass that counts the packets left in the dataset (the index of the source is the
  position in the list). Lines hold doubles; their formatting with 15 digits and the output to the console are left out.
  Opening and writing the output file does not fail. `int` variables hold values far below 2^31 (proved by the exact
  values).

* `M_Mmap`: `tbb::parallel_reduce` is any plan of its contract: operator() on ranges in order, a new body for a right part,
  joined afterwards. Formatting of doubles is the oracle `show`; `opens` says which files can be opened for writing. Reading
  the input succeeds once it is opened, and `malloc(0)` does not give NULL. The input is not one of the output files. A
  file is an HDF5 image followed by text. The number of bad hits is unbounded (fewer than 2^31 hits). Timers, log messages
  and the option `debug`, which changes the log level, are left out.

* `M_Program`: the record `outside` holds what the surroundings decide: which input and configuration files exist and
  contain what, whether an HDF5 file can be created while others are open, whether the image directory can be made, which
  files can be written, and the two library parsers. Different names are different files, HDF5 outputs and other outputs
  have different names, and the input is not an output. An HDF5 file that has been created holds no groups until it is
  closed; what a terminated program leaves in it is taken to be this empty file. Writing to an open HDF5 file does not
  fail (C46 says what the functions do if it does).

* `M_GdcMain`: what the surroundings answer is the record of C49, the same at both times the output is opened; different
  names are different files and directories are not part of the disk. `room` is the number of bytes of the output that
  reach the disk. Streams do not throw on failed writes. When the input is opened the header line is still in the buffer
  of the stream, so an output that is also the input is empty then.

* `M_VenusMain`: a round shows the directory entries up to the first failure to list them, and whether there was one. Bin
  edges are computed anew for every file; the other settings have been read once by `toString` before and do not change.
* `M_Bench`: an iteration of the parallel loop of benchmark_raw2hits is one step; iterations touch only their own batch
  (C17 has the interleaving packet by packet for the same loop of the command line program); run_multi_thread of benchmark_raw2events uses that interleaving and keeps the events nobody reads.
* `M_Fake`: the numbers drawn are parameters (the order in which the arguments of the constructor are evaluated only
  permutes them); the threads read shared hits and write nothing shared, so each is run on its own.
* `M_Text`: operator<< for double is the conversion %.6g of ISO C with default flags and the "C" locale, correctly rounded
  (halves to even) as in the GNU C library; a NaN is written without a sign. The texts were compared with those of the C
  library for 141 doubles (random bit patterns, extremes, carries, ties).
* `M_Version`: the tools are those of GNU, the shell takes a leading zero for octal (dash, bash as sh); arguments have no wildcards; the messages on the error
  output and the value of a non-zero exit status are left out.
* `M_BenchSh`: each run is `mmap_main`; the script goes on after any exit status, also after an exception; the output of
  find and the answer of the compare program (h5diff, diff) are parameters; mkdir succeeds; the .info and .result files
  (none has the extension of a result), the messages and the report of speeds are left out. A run with undefined
  behaviour has no outcome.

### Not modelled

* The template `extractHits` with a flag `useGDC` (FastSophiread tpx3_fast.cpp:325-334): it is not declared in a header
  and never instantiated.
* The user interfaces (widgets, plots) of SophireadGUI and sophiread_display, benchmarks and tests (but for benchmark_mmap,
  benchmark_raw2hits, benchmark_raw2events, benchmark_hits2events, benchmark_abs, benchmark_abs_thread and the test data generator), scripts (but for version.sh and benchmark.sh), CMake files.
* Log messages, getopt itself, file system races.
* The compiled program (in particular `-ffast-math`, see section 2).

## 5. Proof ideas

| id | proof idea |
|---|---|
| C01 | disjoint bit fields: shifts and masks as div/mod, encoder in `S_Hit` |
| C02 | linear arithmetic per chip; digit decomposition of the 16-bit address |
| C03 | case split on carry and threshold; double comparison reduced to integers by monotonicity of rounding |
| C04, C05 | double threshold shown equivalent to `t > 666800` by monotonicity and two point checks; loop invariant |
| C06 | case analysis; uninitialised field is `None` |
| C07-C09 | div/mod; induction over packet sequences |
| C10-C14 | buffers as packet lists; induction in steps of 8 bytes |
| C15, C18-C20 | induction over the packet count |
| C16, C17 | simulation of the running timestamps; commutation of updates at distinct indices; a step of a task fails as the rest of its batch does (`move_fails`), which by the invariant is how the batch fails alone |
| C21-C25 | relational specification of the slot clustering, refinement of the loop; invariants |
| C26 | exactness of integer sums in binary64, relative error of two roundings |
| C27-C31 | lower_bound characterisation, counting with permutations, exactness of 16/32-bit samples |
| C32, C33, C46 | induction over appends |
| C34, C35, C47 | a chunk as a list of items (chip, packets); items of a concatenation at a clean boundary |
| C36, C37 | induction over 8-byte steps, simulation of two chunkings |
| C38, C39 | invariants over histories |
| C40, C41 | fold lemmas; monotonicity of rounded multiples |
| C42 | invariant of a two-process transition system; schedules built for every division of the hits; decreasing measure |
| C58 | loop over the framing relation, arrays as lists of optional bytes |
| C59 | C42 and C58 with the clustering theorems; totality of the Gaussian fit |
| C43 | modular arithmetic of the rollover counter; invariant along the sequence of true times |
| C53, C54 | div/mod; conversion of doubles of at least 2^63 |
| C70, C71, C74 | C55 and C23 for one file; invariant over actions; unit intervals for truncation |
| C76 | halves of integers are exact in binary64; sorted permutations are unique |
| C77 | sixteenths and 4096ths are exact in binary64, relative errors of products and sums of non-negative numbers; induction over packets |
| C78 | `lor` of overlapping fields by distributing shifts |
| C75 | C47 for the input, C31 and C30 for the output; counting in disjoint sets for the spectra |
| C72, C73 | induction over datasets; C40 |
| C55-C57 | inductive framing relation, both loops follow it |
| C44 | the merge loop as a cut of the sorted list into groups; times as reals, rounding of differences is monotone |
| C60 | integer times are exact in binary64; classes from C44 applied to the clusters of all chunks |
| C64-C66 | C01 for the fields; relation `reads` over packets and the bytes after the last one, arrays as optional bytes |
| C67 | refinement of the slot array by lists of closed and open clusters; the slot number is the cluster number modulo 128 |
| C68 | absolute error of five roundings; NaN propagates |
| C79 | invariant of a session over that of C69; every schedule of the threads is one of the session |
| C69 | invariant of the transition system with the number of hits handed over and used; explicit schedules |
| C61-C63 | label offsets as partial sums; counting by a bijection of positions |
| C80 | the windows cut the packets of the file (as in C14); the state of the loop after each window is determined by the datasets left; a plan of the reduction gives the events in order by induction |
| C81 | main as C75 behind the stages that can refuse; no function of the model runs out of fuel (`ends`); without images the bin edges do not matter |
| C82 | the outcome of C49 decides the case; decimal digits by induction on the library's numerals; commas and newlines are no digits, so the text can be read back |
| C83 | the loop is that of C38 as long as the directory can be listed; otherwise its state is that of C38 for a prefix of the entries |
| C84 | composition of C42, C59 and C72 |
| C85 | batches are independent, so any order gives the sequential result; a state with fewer times stays poorer under every packet; the double comparison with 16.67 is monotone |
| C86 | C46 |
| C87 | the true numbers form a run of the specification of C23: an event closed too early would have n + 1 events begun since; runs are unique |
| C88 | adding a number drawn to 10 i moves by at most the bounds, by monotone rounding; clusters of equal hits are isolated in the sense of C87; sums stay below 2^53 |
| C89 | the digits are the nearest integer to the fraction m * 2^e / 10^(x-5) with 10^x at most the magnitude; numbers with a smaller power of ten and six digits are below 10^x; a reader (digits, point, power) undoes the layout; relative errors of 5 * 10^-6 separate times 10^-5 apart |
| C90 | a relation between packets and true times (`S_Measure`: clock of the last time packet, the time announced, the last pulse); invariant of each decoder: its timing state is the true clock reduced to its own width; a time packet and the low 30 bits of a time determine the time within a window of 2^30 ticks; `histories` writes the packets of true times, so that the relation is inhabited for all of them |
| C91 | C90 for the hits, C87 for the clusters, C24 for the centroid; mean of times within [t, t + w]: bounds carried through the rounded sum; composed with C81 |
| C92 | the cell of a neutron is its bin and nearest pixel; rounding to the nearest integer moves a value within a + 2^-41 of an integer to one within a; quotient by 10^9 of integers has relative error 2^-53, other times lie between by monotonicity; numbers of cells from C81 by counting |
| C93 | roll-over counter follows the true times (C43, and without limit in the first period); labels of isolated events are their numbers (C87 with four slots); C91's bounds on the centroid |
| C94 | grep and sed patterns as prefix and span; a definition of one name is not one of another; decimal texts are unique |
| C95 | a file whose time packets come first is decoded to its true hits from any timestamps (`learnt` forgets what came before the file); invariant over scans: names saved so far, their entries in order, pixels on disk count them; permuted names give permuted entries |
| C96 | C90 for the library decoder with the reader of the streaming program (C58); a batch is a piece of the hits, and the members of isolated events in a piece are again those of isolated events, renumbered by their first hit in it; the clusters of a batch are then the shares of the events (C87), and the ToF of the fit is a mean of the ToFs above the median; existence by C84's every division and totality of clustering |
| C97 | C90 for the display decoder, extended by the histogram entries; in the ring the open clusters are, step by step, the members of the last 127 events that have begun (a hit of an isolated event is accepted by its own cluster only, and an event that gets a further hit is among the last 127); closed clusters are therefore whole events; the weighted mean of their hits is within a pixels of the event, and C68 gives the pixel of the mean |
| C98 | in the class of a hit of an event (C60, C61) the positions of the hits of this event are closed under neighbours, so they are one cluster of the library; sums of integers are exact, so centroids and times do not depend on the order of the class; by C62 the earlier fits do not matter as every hit is in a class of the minimal size |
| C99 | all runs go through the same windows (C80) whatever the threads, so there is one function from the old to the new file; decimal numbers are injective, so the names of the result files differ; counting over the list found is invariant under permutation |
| C100 | whole numbers up to 2^53 have one double each (zero with positive sign), so all sums of the centroid are the double of the exact sum; a renaming of the events turns the clusters of one order into those of the other up to the order of their hits; for DBSCAN the positions are carried over by a bijection, which preserves every clause of `distinct`, and C98 gives each event field by field |
| C101 | the packets of a recording are its early pixels followed by the true hits, so C77 gives the lines; the loop of the extractor is followed packet by packet with the lower half of the announced time as invariant, and C37 carries the table of one chunk over to others |
| C102 | C90 gives the hits of a recording, C91 its neutrons, C80 and C85 what the programs do with them; a recorded time of flight is below one frame (666800 ticks), which bounds the products by 25 so that rounding keeps them inside an integer window |
| C103 | the bounding box test and the order of the first hits are carried over by every motion, so the clusters of C23 are, and they are unique; sums of a cluster are moved exactly and C26 bounds the rounding of the means; decoded hits of delayed histories are delayed (C90) |
| C104 | a history that starts from an unset clock may follow any other (`histories_app`); C81 for the three runs, the hits and neutrons of a history are unique (C90, C23), counts add up and a run leaves proper images that the next one adds to |
| C105 | `abs_fit` never looks at the minimum; `abs_get_events` walks over the labels and skips those of too few hits, so a larger minimum filters; C91 with a minimum of at most 1, then filtered by the true numbers of hits |
| C106 | the clusters of a labelling are a permutation of the hits; per cluster C26 gives the exact charge and a centroid of relative error 2^-51, and a cluster is only dropped for coordinates that are no numbers, so without charge; sums add over clusters and datasets |
| C107 | the joined half open interval is the union of its parts (a first edge below the time is found from the left); lands in at most one bin (C28), so counts add (`sum_counted`); C81 for both runs |
| C108 | the entries counted by the reducer for a name and by a run of the program for the file of that name are the same list (C90, uniqueness of `neutrons_of`); sums over the files do not depend on the order; invariant along the chain of runs (`completed_saved`) |
| C109 | products of small integers are exact in doubles and rounded to themselves; a count over the hits at (kx, ky) is the count at (x, y); C81 for both runs; that runs with super resolution end normally (`C81_succeeds`): rounding is monotone, so no position exceeds the rounded side |
| C110 | C90 gives the true hits in both timing modes, else `processed` is a function of mode and recording; neutrons, counts and spectra are determined by the hits (`neutrons_app`, `counted_unique`, `spectrum_unique`); C81 for both runs |
| C111 | histories that start from an unset clock join in any order (`histories_concat`); C90 and C23 give the hits and neutrons of each part, a permutation of the parts permutes both (`forall2_perm`), and counts and spectra do not depend on the order (`counted_perm`, `spectrum_perm`); C81 for both runs |
| C112 | the timestamps after a list of packets depend on its time packets only (`clock_filter`), so the hits of later datasets are the same; hits are at most as many as pixel packets, neutrons at most as many as hits (the cells of the index vector sum up to the hits), counts split over concatenations (`counted_share`); C81 for both runs |
| C113 | the first n bytes hold whole datasets and a piece of the next (`cut_place`); a piece of fewer than 8 bytes has no header, a piece of whole packets reads like a shortened dataset (`piece_items`), any other reads out of bounds (`broken_items`, `payload_none`); so the run equals one over a shortened recording (`finished_completed`, `program_input`), whose hits are a prefix (`left_processed`) |
| C114 | the hits of a recording are those of its packets tagged with their chips (`emits`, `processed_emits`), which are unique; counts depend on the hits only; the witness is two runs of the whole program whose numbers of neutrons are computed (`completed_number`) |
| C115 | a dataset without time packets leaves the timestamps as they are (`timeless_clock`), so exchanging two of them exchanges their lists of hits (`shuffled_processed`); the rest as C111 |
| C116 | after a low half the timer, after the high half the reference, after a pulse all timestamps depend on these packets only (`recovers`, by three relations between two clocks that every packet preserves); then as C112 (`contained_l`) |
| C117 | each run adds the same counts (`counted_unique`, as the hits and neutrons of a completed run are functions of the recording) to what it finds (`again_image`, by induction over the runs); hits, neutrons and spectra are written anew (C110) |

## 6. Findings

Behaviour of the source that a reader of its documentation would not expect. Each has a theorem.

| theorem | what happens |
|---|---|
| `C02_injective_all_chips_refuted` | chips outside 0..2 are all placed in the quadrant of chip 3, so two chips can give the same position |
| `C03_early_run_wraps`, `C03_always_extension_refuted` | a hit more than one second ahead of a GDC below 2^30 ticks gets an arrival time near 2^64; the carry out of 48 bits at the rollover is lost too |
| `C08_out_of_order_pulse_is_late` | a TDC pulse that arrives out of order across a counter rollover is extended to a time one period (2^32 ticks, 107 s) late |
| `C08_stays_48_bit_refuted` | the TDC-only extension is not reduced to 48 bits: it can reach 2^48 |
| `C12_no_side_condition_refuted` | a payload packet that starts with the bytes "TPX" is taken for a header, and hits are then decoded twice |
| `C14_trailing_bytes_never_terminate`, `C14_limit_one_never_terminates` | the resumable discovery loop never ends on a file whose length is not a multiple of 8, nor with limit 1 on a file with a header |
| `C15_unaligned_buffers` | a payload that covers the trailing partial packet is read beyond the end of the buffer |
| `C19_idempotent_refuted` | extracting twice does not give the same hits: the second call appends, with the timestamps the first one left |
| `C24_zero_tot_refuted` | a cluster whose hits all have ToT 0 has a NaN centroid and is dropped |
| `C27_first_edge_lost`, `C27_time_zero_lost` | a time equal to the first bin edge (in particular time 0) is in no bin |
| `C28_uninitialised_time` | a hit without time of flight makes the histogram read an uninitialised value |
| `C31_wide_samples_overflow` | accumulating onto an existing image of the same size with wider samples (RGB, 64 bit) overflows the scan line buffer |
| `C31_narrow_samples` | an existing image of the same size with 8- or 16-bit samples is read as 32-bit samples: several old pixels are added to one |
| `C30_resolution` | a super resolution that makes the side of the images no int (4.2 million and more) is undefined |
| `C32_equal_lengths_with_faults_refuted` | a failing library call is swallowed in the middle of an append, columns then differ in length |
| `C30_saving_no_batches` | saving the images of an empty batch list reads out of bounds |
| `C46_collision` | two saves with the same microseconds overwrite each other |
| `C34_zero_chunk_size` | `-c 0` (or a multiple of 2^44) is accepted, and nothing is processed |
| `C35_cut_inside_dataset` | the rest of a dataset that straddles a chunk boundary is lost silently |
| `C47_early_run_undefined` | consequence of C03 in a whole run: undefined conversion in clustering |
| `C47_hit_before_tdc_undefined` | consequence of C06 in a whole run (default timing mode) |
| `C36_stale_timestamp` | an MSB packet that assembles to timestamp 0 is reported with the previous timestamp |
| `C36_chips_mixed_refuted` | the GDC extractor combines the lower bits of one chip with the upper bits of another |
| `C37_lost` | the GDC extractor forgets the chip at chunk boundaries; timestamps before the first header of a chunk are lost |
| `C37_smaller_chunks_refuted` | a smaller chunk size can report a timestamp that a larger one loses |
| `C38_retry_counts_twice` | the auto reducer adds the bins written before an exception again when it retries the file |
| `C38_independent_of_scans_refuted` | timestamps are carried from file to file within a scan but reset for each scan: the images depend on the grouping of files into scans |
| `C38_no_header_undefined` | an empty raw file (just created by the acquisition) makes the auto reducer read out of bounds |
| `C38_unreadable_exits` | a raw file that cannot be opened ends the auto reducer |
| `C38_unwritable_forgotten_refuted` | a file whose images could not be written counts as reduced |
| `C38_at_most_once` | a file that is still growing when it is first read is never completed (its instance `C38_growing_file_instance`) |
| `C39_stops` | raw files that appear together with the *.nxs.h5 file are not reduced |
| `C40_missing_value_undefined` | a text configuration line without value uses an uninitialised variable |
| `C40_other_lines_ignored` | tof_bins and tof_max of the text configuration have no effect |
| `C41_last_edge_refuted`, `C41_degenerate` | the last bin edge can exceed the maximum; 0 bins give a NaN edge |
| `C51_defined_refuted`, `C51_undefined` | a JSON fraction beyond the range of an integer setting is converted all the same (undefined), and 2^31 - 1 bins overflow an int |
| `C51_empty_edges`, `C52_defaults_differ_refuted` | the default time range is 16.7 ms or 1/60 s depending on how the default is reached |
| `C43_time_since_trigger_refuted` | SophireadLib's file reader ignores the triggers of the file |
| `C53_hit_before_reference_refuted` | a hit shortly before a time packet is stamped about 27 s late by SophireadLib |
| `C54_time_of_flight`, `C54_packet_to_hit_defined_after_trigger` | a hit before its trigger gets nanoseconds added to ticks, or an undefined conversion |
| `C55_*` | SophireadLib reads beyond its buffer on truncated input; the guards against it never apply in time |
| `C56_*` | fastParseTPX3Raw returns blank hits; processBatch forgets the time reference |
| `C42_all_hits_processed_refuted` | the streaming program forgets the hits of an incomplete batch when the reader finishes: all hits of a file of fewer than 10000 |
| `C42_unopened_file_ends_refuted` | the streaming program never ends if the file cannot be opened |
| `C58_whole_packet_files_defined_refuted` | the streaming program uses an uninitialised buffer at the end of every file of whole packets |
| `C58_last_hit_repeated`, `C58_cut_off_dataset_filled_up` | in practice the last hit of the file is repeated as often as the last dataset has packets, or as packets are missing |
| `C59_events_always_saved_refuted`, `C59_few_hits_never_saved` | the streaming program may (few hits: must) end by an uncaught exception instead of writing events |
| `C63_only_toa`, `C63_periods_are_confused` | DBSCAN clusters by the 14-bit time of arrival: hits whole periods of 409.6 us apart are taken to be simultaneous |
| `C61_labels_and_events` | the time of a DBSCAN event is the mean 14-bit time of arrival, in ns, of the whole time class rather than a time of flight in ticks (its accessor multiplies by 25 again) |
| `C98_time_refuted` | the time of a DBSCAN event can be later than every one of its hits, as other events of the time class enter its mean |
| `C99_csv_again` | benchmark.sh reports mismatches if it is run a second time for csv with another number of tries, because the program appends to csv files |
| `C99_fresh` (`configs false`) | if the data file is read-only, the mapping runs of benchmark.sh fail and the script reports that all files match |
| `C100_stream_refuted` | the number of events found by the box search depends on the order of hits of the same time (columns 10, 14, 18 with radius 5: one event; 10, 18, 14: two) |
| `C101_cam_undefined` | every recording that starts with a reference (before which times of pulses and hits cannot be known) makes the manufacturer's converter use a variable that is not set |
| `C102_mmap`, `C102_time` | benchmark_mmap writes for every true event a time of flight 25 times too large, and at 60 Hz counts every true hit from 16.675 microseconds after its pulse as bad |
| `C113_broken`, `C113_undefined` | a recording that breaks off inside a packet makes the command line program read beyond the end of its buffer; there is no guard and no message |
| `C114_events_refuted` | the command line program clusters each dataset by itself: an event that lies across the end of a dataset (or on two chips) is counted twice |
| `C116_tdc_refuted` | with TDC timing one damaged pulse packet (counter near its end) deprives all later hits of a time of flight; with GDC timing the next reference and pulse repair the clock |
| `C117_again` | a repeated run adds its counts to the existing images again while hits, neutrons and spectrum are replaced: afterwards images and spectrum differ by the factor of the number of runs |
| `C62_fresh_labels_refuted`, `C62_events_are_kept` | refitting a DBSCAN object leaves stale labels; `get_events` ignores new hits until `reset` |
| `C65_all_hits_refuted`, `C65_nothing_read` | the display program reads the size of a dataset as two signed bytes: 32 packets too few for half of all sizes, none from 4096 packets on |
| `C65_cut_instance`, `C65_uninitialised_instance` | a cut off dataset is filled up with its last packet, or uses an uninitialised buffer |
| `C66_window_of_the_image_refuted` | the window of the time-of-flight spectrum is applied before the hit is placed, so it selects five columns of each chip |
| `C68_all_clusters_shown_refuted`, `C68_open_clusters_not_shown` | the display program never shows the last 127 clusters of a file |
| `C68_defined_refuted` | sums of a cluster can overflow an int; a cluster without ToT converts a NaN to int |
| `C69_all_hits_used_refuted` | the worker of the display program may be stopped with up to 4095 hits in the ring |
| `C79_not_opened` | a file that cannot be opened is a null pointer passed to `fileno`, or to `fwrite` |
| `C79_spectrum_known_refuted` | `mytofhisto` is not initialised: a spectrum saved before a file has been read is indeterminate |
| `C79_image_by_file_refuted` | reading the same file twice can give different images |
| `C70_last_only_refuted`, `C70_session` | SophireadGUI never clears its image: it shows the sum of all files read, while the events saved are those of the last file |
| `C70_all_visible_refuted` | events that fall outside 512 x 512 after the rotation (detector coordinates go up to 515) are not shown |
| `C70_no_hits` | reading a file without hits in SophireadGUI dereferences the end of the empty label vector |
| `C71_stuck`, `C71_when` | cancelling the dialog for reading in SophireadGUI leaves the timer running: nothing can be read or saved any more |
| `C71_uninitialised` | in that state the timer displays `m_total_events`, which is never initialised |
| `C74_unopened` | an image file that cannot be opened is passed to `fwrite` as a null pointer |
| `C76_time_always_finite_refuted` | the Gaussian fit of hits with equal ToT keeps no hit and divides by zero: the time of flight is NaN |
| `C56_too_many_packets_overflow` | from 2^31 packets on `fastParseTPX3Raw` overflows an `int` |
| `C73_same_as_cli_refuted` | the parameter file is read differently by the library (64-bit unsigned) and by the command line program (int) |
| `C77_global_time_first` | the converter of the manufacturer uses an uninitialised `spidrTime` if a global time packet comes first |
| `C77_ragged_file`, `C77_cut_file` | it reads the file into a buffer of fileLength / 8 words (heap overflow otherwise) and reads beyond the buffer for a dataset cut by the end of the file |
| `C77_same_hits` | its fine time is 15 minus that of the library, that is a time earlier by a fraction of a tick instead of later |
| `C78_fine_time_changes_tot_refuted` | the test data generator masks the 4-bit fine time with 0xFF, so that larger values change the ToT |
| `C80_bad_is_late_refuted` | benchmark_mmap compares a time in ms with 1 / rate in s: hits after a thousandth of the period count as bad |
| `C80_events_counted_refuted` | it adds the number of all events so far for every window, so that the number reported is too large |
| `C80_time_written` | it multiplies times by 25 twice |
| `C80_bin_decodable_refuted` | its .bin files are decimal digits without separators |
| `C80_bin_undefined_refuted` | an event with x or y above 512 makes a conversion to 16 bits undefined |
| `C80_without_tgdc_refuted` | without the option `tgdc` hits before the time packets of their own dataset are lost |
| `C80_trailing_bytes` | it never ends for a file whose size is not a multiple of 8 |
| `C81_terminates` | the program does not catch `H5::Exception`: an HDF5 output that cannot be created ends it by `std::terminate` |
| `C81_same_output` | the same name for -H and -E terminates the program after a file of that name has been emptied |
| `C81_exit_zero_is_complete_refuted`, `C81_zero_chunk` | with -c 0 the program returns 0 without processing anything |
| `C81_spectra` | without -s a spectrum is written all the same, to `Spectra.txt` in the current directory |
| `C82_failure_keeps_output_refuted`, `C82_bad_size` | the GDC extractor empties its output before it opens the input, so a run on an empty input destroys an earlier result; a wrong chunk size leaves an empty output file |
| `C82_input_kept_refuted` | the GDC extractor with the same name for -i and -o destroys the measured data |
| `C82_exit_zero_is_complete_refuted` | failed writes are not noticed by the GDC extractor: on a full disk it returns 0 with an incomplete output |
| `C83_lost_directory` | the auto reducer ends with code 1 if its input directory cannot be listed once |
| `C83_no_edges` | the auto reducer accepts a negative number of bins, then fails on every file and keeps running without saving anything |
| `C84_events_always_saved_refuted` | SophireadStream may be aborted with "No events to save" on any file of fewer than 10000 hits, depending on the schedule |
| `C84_always_ends_refuted` | SophireadStream never ends if its input cannot be opened |
| `C96_every_hit_once_refuted` | if a file ends in a pixel packet, SophireadStream decodes the last hit again, once for each packet of the last dataset (if local arrays keep their content) |
| `C85_same_hits_refuted` | benchmark_raw2hits does not carry the times from dataset to dataset and reports fewer hits than benchmark_raw2events |
| `C85_old_file`, `C85_read_back_refuted` | benchmark_raw2events reads back an old verify_spidertime.h5 if there is one: from the second run on its check says nothing |
| `C85_verified` | benchmark_raw2events is aborted by an exception if there are no hits and no old file |
| `C87_nine_refuted` | nine simultaneous events are one more than the slots: a further hit of the first one becomes a tenth event |
| `C88_defined_refuted` | benchmark_hits2events, benchmark_abs: a time of exactly -1 drawn for the first cluster becomes 2^64 - 1 ticks and an undefined conversion |
| `C88_cut_refuted`, `C88_idle` | benchmark_abs_thread with other sizes cuts clusters at chunk borders; with more threads than hits it dereferences the end of an empty vector |
| `C89_times_refuted` | spectrum file: six digits do not separate the ends of more than 99999 bins |
| `C89_csv_refuted` | benchmark_mmap .csv: six digits of a time in ns hide the clock cycle of 25 ns from 10 ms on |
| `C90_gdc_late_refuted` | GDC mode: a hit 1 s or more after the last time packet is dated 26.8 s too early |
| `C90_tdc_late_refuted` | TDC mode: 2^31 ticks (53.7 s) after the start hits get wrong times |
| `C90_lib_before_refuted` | SophireadLib dates pulses and hits that are earlier than the last time packet 26.8 s too late; FastSophiread does not |
| `C90_gdc_early_refuted` | GDC mode: a hit more than 25.8 s before the last time packet is misdated |
| `C90_frame_refuted` | GDC mode: a hit 666801 ticks or more after its pulse gets a time of flight that is 666667 ticks too short (TDC mode and SophireadLib have no such limit) |
| `C90_lib_late_refuted`, `C90_display_period_refuted` | SophireadLib misdates hits from 26.8 s after the last time packet, sophiread_display gives wrong times of flight over the end of a period of its 30-bit clock |
| `C93_late_start_refuted` | SophireadGUI: a file that begins 26.8 s or more after the reset of the clock (e.g. the second file of a run) is dated from the start of the run |
| `C93_gap_refuted` | SophireadGUI: after 13.4 s without hits the following hits are misdated by 26.8 s |
| `C94_octal_refuted` | version.sh: after version 2.3.010 a release makes 2.3.9 (the shell takes 010 for eight) |
| `C94_comment_refuted` | version.sh: digits in a comment count as part of the number; the release then fails after it has changed the file |
| `C94_tab_refuted` | version.sh: a tab after `#define` is not found (grep's bracket has no escapes), though sed would replace the number |
| `C94_dashes_refuted` | version.sh: all that follows `--` is dropped: `-- print` prints the usage, `release -- --dry-run` releases |
| `C94_number_refuted` | version.h: 2.256.0 and 3.0.0 have one VERSION_NUMBER |
| `C94_check_instance` | the changelog of the repository is empty, so `version.sh check` fails |

## 7. Validation of the model

Tests of the model, not proofs; nothing else depends on them.

* `Tests_Repo.v` evaluates the model on the data of the unit tests in `FastSophiread/tests`, `SophireadCLI/tests` and
  `SophireadLib/tests` and compares with what these tests expect. Left out are tests of text output (`toString`),
  of the Gaussian fit and of DBSCAN (external solver and library), and tests whose data file is not in the repository.
* The model was also extracted to OCaml (outside this repository) and run on the detector files in
  `sophiread/resources/data`. The results agree with the reference values in the tests of the repository:
  * `suann_socket_background_serval32.tpx3`: 81399 datasets and 98533 hits (FastSophiread/tests/test_tpx3.cpp 84, 142),
    also when read in windows of 1000 packets; the largest time of flight is 666522 ticks;
  * `greg_220ms_TDC_GDC_enabled_20230214_3.tpx3`, `readTimepix3RawData`: 365 hits, first and last hit
    (SophireadLib/tests/test_tpx3.cpp 39-55); the FastSophiread functions give the same hits, and for the last one the
    time of flight 172774 and the time 8809347419 of the comment there;
  * `rollover_test_data.tpx3`: the 26 times (SophireadLib/tests/test_tpx3.cpp 58-118; also in `Tests_Repo.v`).

## 8. Edits tried against the theorems

`seeded/LOG.jsonl` has one line per edit of a definition, with the theorems that no longer hold. How to read it:

* `failed` lists the theorems whose proof no longer stands: those that fail themselves and those that use a lemma in
  `failed_lemmas`. For the latter it was not shown one by one that the statement is false of the edited model.
* An edit with no failed theorem has a note. `equivalent` and `unreachable` are reasons found by reading the model; where
  a theorem supports the reason the note names it. The other notes are not themselves machine-checked.
* `invalid` edits do not compile and test nothing; they are not evidence for any theorem.
* Until the round that added `C17_undefined` and `C72_no_tof`, 28 surviving edits had the same note `unreachable`, which
  the logging script filled in without a check of the single case. They have been reviewed one by one. Two were
  reachable and showed gaps: a chunk that ends inside a packet while it is processed in parallel, and saving hits
  without time of flight. The two theorems were added for them. The other 26 now have their own reasons.
  Of the notes written for single definitions, those of `cam_step`, `f_to_u32` and `conv` named a wrong or too broad
  reason and were corrected; the edits are still harmless for the claims.
* The edits of the last random round (152 drawn, 28 run) were not all run for lack of time.
