# A formal model of fluidimage in Rocq (Coq 8.16.1)

The source modelled is `/repo` (fluiddyn/fluidimage at the pinned commit), read as
text only. Nothing of it is executed here. All Coq files are in
`rocq/theories/`, logical name `Verif`.

## 1. Conventions

* `XModel.v` : shallow Gallina model of a group of functions, one definition per
  function, branch by branch, each with a comment citing file and lines and
  the simplifications. No proofs.
* `XSpec.v` (or the head of `XProps.v`) : small independent specification (what the
  English property says), not using the helpers of the model.
* `XProofs.v` : lemmas.
* `XProps.v` : only the property theorems, closed by `exact lemma`, each followed by
  `Print Assumptions` and an `Example` showing that a concrete non trivial case meets
  the hypotheses.
* Python exceptions are values (`result`), never totalised defaults.
* Python integers are `Z`; `//` and `%` are `Z.div` and `Z.modulo` (floor division,
  the same as Python for every sign of the divisor).
* Floats: modelled by exact numbers (`Z`, `Q` or `R`) when the property is about logic or
  algebra; the rounding error is then out of the model (stated in the note of the
  property). Arrays of floats with NaN are `option` valued.
* Calls out of the package (fluiddyn, numpy FFT, scipy, h5py, OpenCV, OS) are
  section variables / function parameters; what is assumed about them is written
  in the theorem's hypotheses.
* When the faithful model violates the English property, the theorem `..._refuted`
  exhibits the witness, and the strongest true version we found is proved next to it
  (suffix `_partial` when it is only part of the property).

## 2. Plan per property

| id | model | proof |
|----|-------|-------|
| C01, C02, C03 | `split_range`, `split_list` on `Z`/lists | induction on the parts; `lia` on floor division |
| C04 | strings as `list ascii`, decimal printing of `Z`, `str.split`, `str.strip`, `int()` | round-trip lemmas, injectivity of padded numbers |
| C05 | the splitter classes on top of C01/C02 with the set of saved results | permutation / NoDup lemmas |
| C06 | ordered dict as association list | refinement to an abstract FIFO map, induction over operations |
| C07, C13 | the `while any(queues)` sweep of exec_sequential for arbitrary work lists | fuelled loop with measure; final map = error-monad composition |
| C08, C09, C10, C11, C12 | transition system of exec_async (launcher loops, spawned tasks, threads, stop poller) | inductive invariants over all interleavings; measure for termination; witness schedule for C11 |
| C14, C15, C16 | make_couples / make_subsets as queue transformers; read + group stage as a transition system | invariants; exact characterisation of the deadlock |
| C17, C18, C20, C56 | executor life cycle as a state machine (calls recorded in a trace) | case analysis, induction over events |
| C19 | interleaving of append and save steps, crash points | invariant, refutation witness |
| C21 | polling loop against an adversarial exit schedule | induction over polls |
| C22 | directory as a finite set of names | search loop with fuel = number of existing names + 1 |
| C23, C05 | directory contents as predicate; run = list of save events, crash = prefix | list filtering lemmas |
| C24 | servers and workers as transition system | invariant; witness schedule |
| C25 | reduction loops with uint32 arithmetic | invariant (sum, count), permutation independence |
| C26, C27 | queues wiring as pipeline graph | invariant "queue never emptied" along all executions |
| C28, C29 | window positions and crops on `Z`, Python slices | arithmetic |
| C30, C34 | array scans with NaN as `option` | loop invariants |
| C31, C32, C33 | index maps; circular correlation over `Z` | index arithmetic; Cauchy-Schwarz |
| C35 | dictionaries of errors / wrong vectors | invariants |
| C36 | branch structure of compute_subpix over exact numbers | arithmetic |
| C37 | list of window sizes | induction |
| C38 | names as strings | injectivity, collision witness |
| C39, C40 | HDF5 group as a name-sorted map | round-trip, witness for the alphabetical order |
| C41 | directory contents as map, processing schedules | confluence for disjoint subsets, witness for overlapping ones |
| C42 | log lines as strings | parse/print round-trip |
| C43 | signature processing as list functions | characterisation, witness |
| C44 | arithmetic on `Z` seconds | `lia` |
| C45 | sums over modes | induction, witness for odd sizes |
| C46 | mutation of a list during iteration | induction |
| C47, C48 | list/matrix functions | index arithmetic |
| C49, C50, C51 | calibrations over `R`, one point; reading of the UVmat files as strings | `field`, `nra`, `nsatz` |
| C52, C73, C74, C75 | thin plate splines over `R`, linear solver by its contract | linear algebra by induction on lists, `Derive`-free derivatives (`derivable_pt_lim`) |
| C53 | crops as Python slices | index arithmetic |
| C54, C55 | decision logic, XML tree already parsed, tools as functions | case analysis, induction |
| C56 | argument of `compute` as a sum type, entry points as a table | case analysis |
| C57, C70, C71, C72 | grids of voxels as lists, interpolation as a function | index arithmetic, permutation of products |
| C58, C59 | correlation map as an array, masking of the first peak | loop invariants |
| C60, C61 | direct and FFT correlation over `Z` / `R` | index arithmetic, Cauchy-Schwarz |
| C62, C63, C64, C65, C66 | vector fields as lists of rows over `Q` | index arithmetic, `ring`/`field` on `Q` |
| C67 | discrete Fourier transform over `R` | orthogonality of the characters, Parseval |
| C68, C69 | stereo reconstruction over `R` | `field`, `nsatz`, inverse of 2x2 and 3x3 systems |
| C76, C77, C78 | preprocessing tools with the dtype of the image (wrap around) | case analysis, `lia` |
| C79 | subsets and indices saved by each of them | arithmetic, NoDup of the union |
| C80 | the six coefficients of the 2d_gaussian2 fit over `R` | `field`, symmetry of the sums |
| C81 | surface tracking: place of each image in an execution (invariant over all interleavings) | invariant, measure, witness schedule for the blocking |
| C82 | loop of the correction of the phases (SurfPhaseModel.v, floats = reals, infinities, NaN) | number of turns by the Archimedean property, induction; series by induction |
| C83 | conversion to heights, discarded smoothing with numpy's broadcasting | algebra; all entries of the displacements are zero; counting of the jumps |
| C84 | normalisation in place with the dtype of the array (SurfFrameModel.v, rationals) | invariant of the loop on columns, sums |
| C85 | borders, reference frame as a state | slices, medians of equal values; witness for the history |
| C86 | zero on the borders, resize external | slices |
| C87 | job (lock, files of lengths, time of the end) as a transition system; display session as a function of a history of it (MonitorModel.v) | invariant over the sessions, monotonicity of the histories, witness histories |
| C88 | names of the directories of the jobs and the choice by sorted names (MonitorJobModel.v) | order of the names of fixed width dates |
| C89 | parent, children, event and pipe for one item as a transition system (MultiprocModel.v) | invariant over all interleavings, witness runs |
| C90 | heap of queues, works and their references, loop of the launches (FirstQueueModel.v) | induction on the launches, composition of the renamings |
| C91 | parameters read by the processes, directory of the results (SubprocDirModel.v) | case analysis with the theorems of C22 |
| C92 | what the waiting loop displays, on top of MultiModel.v (ProgressModel.v) | invariant of the loop |
| C93 | state of the works (grids) between the calls of `calcul`, all passes (PivPassModel.v) | invariant over the history: every grid kept is that of images of this size |
| C94 | selection of the valid vectors, griddata and TPS branches, masked coordinates, rounding, displaced windows, loop over the vectors (PivPassModel.v) | induction over the passes, with C29_loop |
| C95 | `optical_flow` and `calcul` with the OpenCV functions as parameters (OptFlowModel.v) | filters of aligned lists; exact characterisation of the bounds |
| C96 | parsing of the mask and of cpuinfo, option, workers (NbCoresModel.v) | induction over the digits of the mask, arithmetic |
| C97 | user function, the four entry points, the chain of works of the topology (Im2ImModel.v) | instances of C07 and C09 for the chain; induction for the filter |
| C98 | reading of the points, `pixel2line` with an SVD given by its properties, arrays of the lines (RayModel.v) | linear algebra on the Gram matrix, induction over the nodes |
| C99 | the window as a state machine: layers, flags, text boxes with their callbacks (ImViewerModel.v) | invariant by induction over the events |
| C100 | choice of the group of a file, the window as a state machine, recursion of the callbacks with fuel (PivViewerModel.v) | order of the texts; invariant by induction over the events |
| C101 | first pass of the work with its kept grid, mask of the couple, recomputation of the grid from the saved shape | induction over the couples with the invariant on the kept grid; injectivity of the points of a grid for the exact condition with a crop |
| C102 | choice of the path of the reference, removal of its indices from the list of images; paths by components | sorting lemmas; injectivity of the names |
| C103 | the filters as functions of the window with reflected borders, the physical field as a function on the plane | induction on the iterations: what is known at a distance of the borders |
| C104 | constructor, save and from_file; the file as datasets, attributes and groups | induction on how the object was obtained, then computation of the file |
| C105 | operators and extraction on objects with metadata | induction on rows and lists of extractions |
| C106 | regularity flag and regularize_grid as a state transformer with exceptions | case analysis with an exact condition |
| C107 | slices, matplotlib quiver as the list of arrows | induction on lines and columns |
| C108 | the array as a list with times, calls as an inductive type | induction on the history of calls |
| C109 | directory and parameters of the servers (`ServerProcModel`, `ResultDirModel`, `ServersModel`) | case analysis on the saving mode; the state without server is a fixed point |
| C110 | the four tasks of a server as interleaved steps (`ServerProcModel`) | invariants over the list of steps (places of the jobs, no failure), decreasing measure |
| C111 | the deprecated classes of postproc.py: grid, derivatives, cache, norm, series | iff for the order of the points; exact value of the curl and divergence for polynomials of degree two; invariants over the calls; every series fails |
| C112 | several calls of compute for one topology: the state of series and works left by each executor | induction over the calls, failures and removals, with C01-C03; exact last part |
| C113 | the events (beginning +1, end -1) of each work sorted by a parameter satisfying the documentation of np.argsort, cumulated and drawn as steps, from the table of `LogModel` | the sum of a prefix of a sorted permutation is the number of executions going on (induction, counting); bounds by counting; counterexamples from real log texts |
| C114 | DisplayPIV: the arrays drawn, the handlers of clicks and keys as a transition function, histories as folds | invariant over the history (text and selected vector), exact characterisations, counterexamples |
| C115 | log_exception on the file system model, check_exception, items going through a chain of works under any schedule | invariant over the schedule (each item is in a queue, or has gone through, or has its report), exact conditions, counterexamples |
| C116 | tools of brightness and contrast: tanh rescaling, range, equalisation, sharpening, with the wrapping of the integers | algebra on each pixel; order and maximum through the monotonicity of tanh (proved from exp); iff for the overflow of the squares and of the difference |
| C117 | text of the dot file character by character; construction of the topology by any sequence of calls | independent reader of the lines of the file; induction over queues, works and calls; iff by counting the links |
| C118 | creation of the correlation objects (displacement_max, shapes, origins) and correlations with scipy.signal / scipy.ndimage as sums over the weights; specification: sum over the second window of the products with the moved first image | a general lemma gives the displacement found at an index from the origin and the offset of the weights; parities by arithmetic; sharpness with an image with one bright pixel |
| C119 | the file written by `_save_as_uvmat`: dimensions and variables with their texts as names, the steps of the `try` block done until one raises | names of different passes are different; explicit contents of a pass by symbolic execution; induction over the passes; a reader with the flags |
| C120 | the cache of the entry points, the search of a name and the class for compute; a session is a list of installations and questions | invariant over histories: what is known is what was installed at the last reload or first question |
| C121 | the works with their cached series, as a state changed by parameters, files and calls; display of the preprocessing | invariant over histories (first call which could create the series); direct execution of the display |
| C122 | wave_vector, set_gain_filter and rectify_frame over real images, Fourier transforms by their definition, np.fft.fftshift as an index map | specification by cosine and sine sums; Hermitian symmetry, orthogonality of the roots of unity, first maximum of the columns; parity analysis of the shifted wavenumbers |
| C123 | set_timestep, append, compute_temporal_fft and compute_1dspectrum along the first axis, in real arithmetic | coefficients by the spectra of C67 at each point, Parseval; exact condition of success; refuted after append |
| C124 | display of an array and its scroll callback with the partial updates left by exceptions | induction over the moves of the wheel; refuted for fifty lines or more and without times |
| C125 | make_synthetic_images with streams of random numbers, in real arithmetic | pixel by pixel, the sum over the particles by induction; slices of the crop |
| C126 | pix2phys_UV and phys2pix with the arrays of the caller in a store | elementwise from C50; effects of the multiplications in place on the store; refuted for the arguments |
| C127 | signal 12 as a step which can occur at any time in the transition system of exec_async (`SignalModel`); handler of the parent over the states of its processes | simulation by an execution without signal (the flag, the returned loops and the poll erased), then invariants of C08; termination with the measure of C10 for fair executions; histories of the processes by induction |
| C128 | main of run_from_xml with the UVmat action, composed with prepare_path_dir_result and the passes of WorkPIV | inversion of the result monad; exact acceptance condition; induction over sessions of runs |
| C129 | transition system: processes writing byte after byte in bounded pipes which the parent does not read, redirections of sys.stdout | invariant on the totals, decreasing measure and enabledness, exact condition |
| C130 | interruption during the steps of ExecModel (relation for the task which is interrupted, steps of the cancelled tasks) and sessions of computations with the installed handler and the locks | effect of each step on the tasks and on the trace, measure, induction on the executions and on the histories |
| C131 | detect_grid on rational positions: box, rounding to even, stable sort | sorted lists, rounding lemmas, counting of the circles in the box |
| C132 | objects CalibCV and contents of the paths | induction on the calibrations |
| C133 | the thresholded image, its sparse matrix, the nearest element as a relation (any choice between elements at the same distance), the blocks of dask and their default size | bright pixels: distances of integer points; refuted for dark pixels, dark images, less voxels than CPUs; volume by C71 |
| C134 | the files as a map from names to contents (intensities or not readable), the attribute I as numpy, dask or dask on a closed file, the writes of a call one by one | induction over the calls; prefix of the writes for the stops; refuted parts by explicit states |
| C135 | the attributes of the object as an association list, the loop of the constructor | invariant of the loop: the last camera of a name; exact conditions |
| C136 | The pixels of the three checks of CalibDirect (range with a step, meshgrid, calls of the interpolations with arrays or pixel by pixel); the interpolations are arbitrary functions, matplotlib is not modelled | Arithmetic of the division for the count, induction on the rows for the arrays; refuted for small images |
| C137 | The names and the paths used by save of the three classes of results of PIV, with os.path.join, basename and splitext on lists of characters, and the attributes present after a load; what is written is in PivFileModel | Inductions on the characters for the paths; case analysis on the kind, the path and the history of the object; refuted for the results read in a file and for the collisions of names |

No property of the list is "not applicable"; numerical accuracy (rounding) and
performance are outside every model here.

## 3. Trusted base

* Coq 8.16.1's kernel (and `coqc` reading the files); no plugin, no `native_compute`, no
  kernel check switched off; `vm_compute` is used in `Example`s and witnesses.
* The standard library axioms listed in section 6 for each theorem: the classical real numbers
  (`ClassicalDedekindReals.sig_forall_dec`, `sig_not_dec`),
  `FunctionalExtensionality.functional_extensionality_dep` and, where limits, derivatives or
  logarithms are used, `Classical_Prop.classic`. No axiom of our own; no other library's axiom.
  (`coqchk` also lists the sealed constants of the standard library's module `Rdefinitions`, the definition of `R`
  and its operations, and of `ssr.ssrunder`; they are not axioms of `Print Assumptions`.)
* The faithfulness of the models: the translation from Python by hand. Each definition cites the
  lines it models and its simplifications.
* The semantics of Python and its libraries as written in `PyBase.v`, `StrModel.v` (integers,
  slices, `str` methods, `int()`), `QueueModel.v` (insertion-ordered dict), `FsModel.v` (files),
  `FloatBase.v` (finite numbers, infinities and NaN without rounding).
* Schedules: `exec_async` runs its coroutines cooperatively on one thread (trio) and the
  works in threads. The model lets a step of any task happen at any time; hence it has at least the
  schedules of the program. A task is cut at its `await`s.

## 4. What is modelled

| files of `/repo/src/fluidimage` | Coq files |
|---|---|
| `topologies/splitters.py`, `executors/multi_exec_subproc*.py` (parts, index files) | `Split*`, `Str*` |
| `topologies/base.py` (queues, works, `compute`, `Work`), `executors/exec_sequential.py`, `exec_async.py`, `exec_async_sequential.py` | `Queue*`, `Exec*`, `Select*` |
| `topologies/piv.py`, `preproc.py`, `image2image.py`, `bos.py`, `mean.py`, `surface_tracking.py`, `optical_flow` names | `Join*`, `Complete*`, `Preproc*`, `Bos*`, `Mean*`, `Surf*`, `SurfRun*`, `Name*` |
| `executors/base.py` (life cycle, lock, results), `multi_exec_async.py`, `exec_async_seq_for_multi.py`, `exec_async_servers.py`, `servers.py` | `Life*`, `Lock*`, `Results*`, `Multi*`, `Servers*`, `ResultDir*`, `Fs*` |
| `topologies/log.py`, `topologies/launcher.py`, `util/*` (logger, durations) | `Log*`, `Util*` |
| `works/piv/singlepass.py`, `multipass.py`, `fix.py` | `Grid*`, `Pass*`, `Fix*` |
| `calcul/correl.py`, `subpix.py`, `errors.py`, `smooth_clean.py`, `mean_neighbors.py`, `fft.py` (indices, energy) | `Correl*`, `Shift*`, `Peak*`, `Direct*`, `Fourier*`, `Subpix*`, `Neigh*` |
| `calcul/interpolate/thin_plate_spline*.py` | `Tps*` |
| `data_objects/piv.py` (names, files, mask, result objects) | `PivFile*`, `Mask*`, `Name*` |
| `postproc/vector_field.py`, `postproc.py`, `piv.py`, `util.py` | `VecField*`, `FieldOps*`, `Spectrum*`, `Util*` |
| `calibration/*`, `data_objects/tomo.py`, `reconstruct/tomo` | `Calib*`, `Stereo*`, `Tomo*` |
| `works/preproc/*`, `data_objects/preproc.py` | `Toolbox*`, `Preproc*` |
| `uvmat.py` | `Uvmat*` |
| `works/surface_tracking.py` (frames, phases, heights, borders) | `SurfFrame*`, `SurfPhase*` |
| `gui/monitor.py` (choice of the job, numbers, state, times; not the widgets) | `Monitor*`, `MonitorJob*` |
| `executors/exec_async_multiproc.py` (one item) | `Multiproc*` |
| `executors/multi_exec_async.py` (first queue), `multi_exec_subproc.py` (directories), progress of `MultiExecutorBase.compute` | `FirstQueue*`, `SubprocDir*`, `Progress*` |
| `works/piv/multipass.py` (calcul), `works/piv/singlepass.py` (calcul of the passes, apply_interp), `calcul/interpolate/griddata.py` (scipy is a parameter) | `PivPass*`, `PivHist*`, `PivInterp*` |
| `works/optical_flow.py` (optical_flow, calcul) | `OptFlow*` |
| `topologies/nb_cpu_cores.py`, `config.py`, `executors/base.py` (number of workers) | `NbCores*` |
| `works/image2image.py`, `image2image.py`, `topologies/image2image.py`, `works/__init__.py` (entry points) | `Im2Im*` |
| `calibration/calib_direct.py` (get_points, pixel2line, compute_interpolents_pixel2line) | `Ray*` |
| `gui/imviewer.py` | `ImViewer*` |
| `gui/piv_viewer.py` | `PivViewer*` |
| `postproc/piv.py` get_grid_pixel, `data_objects/piv.py` get_grid_pixel | `GridPixel*` |
| `works/bos.py` _init_path_reference, `topologies/bos.py` _fix_indices_images | `BosRef*` |
| `postproc/vector_field.py` (filters) | `FieldFilter*` |
| `postproc/vector_field.py` (objects) | `FieldObj*` |
| `postproc/vector_field.py` (display, arrays) | `FieldDisplay*` |
| `executors/servers.py` (the server process) | `ServerProc*` |
| `postproc/postproc.py` (without the spectra) | `OldPostproc*` |
| `executors/base.py`, `multi_exec_async.py`, `multi_exec_subproc.py`, `topologies/base.py` (what is left in the topology) | `ComputeAgain*` |
| `topologies/log.py` (figures) | `LogPlot*` |
| `data_objects/display_piv.py` (arrows, events, marks; not the gray levels, axes limits, histograms) | `DisplayPiv*` |
| `executors/base.py` log_exception, `topologies/base.py` Work.check_exception, the treatment of an item in `exec_*.py` | `Report*` |
| `works/preproc/_toolbox_py.py` (tone tools) | `Tone*` |
| `topologies/base.py` (add_queue, add_work, make_code_graphviz) | `Graph*` |
| `calcul/correl.py` (creation, scipy classes, norms) | `RealCorrel*` |
| `data_objects/piv.py` (`_save_as_uvmat`) | `UvmatFile*` |
| `executors/__init__.py` | `Discovery*` |
| `works/__init__.py` (get_serie, …), `works/preproc/__init__.py` (display) | `Interactive*` |
| `works/surface_tracking.py` (wave_vector, set_gain_filter, rectify_frame) | `WaveVector*` |
| `postproc/vector_field.py` (605-635, 740-760), `postproc/util.py` (compute_1dspectrum) | `Temporal*` |
| `postproc/vector_field.py` (780-808) | `Scroll*` |
| `synthetic.py` | `Synthetic*` |
| `calibration/calib_tsai.py` (13-37, 167-216 with arrays) | `CalibArray*` |
| `executors/base.py` 183-195, 493-560 (signal 12) | `Signal*` |
| `run_from_xml.py`, `uvmat.py` (parameters of the PIV) | `RunXml*` |
| `executors/multi_exec_subproc.py` (pipes), `executors/base.py` (streams) | `SubprocPipe*` |
| `executors/exec_async.py` (SIGINT), `exec_sequential.py`, `base.py` (lock) | `CtrlC*` |
| `calibration/calib_cv.py` (detection, file) | `CalibCv*` |
| `reconstruct/tomo/mlos.py` (interpolator, blocks) | `TomoNear*` |
| `reconstruct/tomo/mlos.py`, `data_objects/tomo.py` (files, cameras) | `TomoFile*` |
| `calibration/calib_direct.py` check_interp_levels, check_interp_lines, check_interp_lines_coeffs | `CheckInterp*` |
| `data_objects/piv.py` _get_name and paths of save | `SaveName*` |

Not modelled: graphical interfaces and displays (`gui/*`, `display_*`), reading and writing of image
formats (`util/util.py: imread/imsave` are functions), `synthetic.py`, the OpenCV and SciPy algorithms themselves,
the CUDA correlations, the command lines, the Fourier filters of the surface
tracking, the rounding of the floats, memory and time.

## 5. Findings (theorems named `_refuted`)

Each one is a behaviour of the modelled code which contradicts the property as a user would state it; the
note of the claim in `MANIFEST.json` says which, and the statements `_iff` or `_partial` next to it give
the cases where the property holds.

## 6. Axioms used by each theorem


<!-- assumptions: generated by tools/mkassumptions.py -->

* Closed under the global context (no axiom) — 632 theorems:
  C01_split_range, C01_split_range_errors, C02_split_list, C03_process_numbers_first_queue, C03_process_numbers_lists, C03_process_numbers_ranges, C04_file_names_distinct, C04_images_indices_roundtrip, C04_saved_files, C04_saved_files_images, C04_series_indices_roundtrip, C05_images_parts_cover, C05_series_parts_cover, C05_splitter_total, C06_is_name_in_values, C06_queue_copy, C06_queue_is_fifo_map, C07_sequential_chain, C08_one_place, C09_same_as_sequential, C09_stops_only_when_done, C100_index, C100_light, C100_passes, C100_passes_refuted, C100_positions_refuted, C100_refused, C100_shown_partial, C100_size_refuted, C100_unreadable_refuted, C101_approximate, C101_crop, C101_crop_iff, C101_crop_refuted, C101_defined, C101_index, C101_multipass, C101_no_crop, C101_shapes_refuted, C102_cwd_refuted, C102_file, C102_index_iff, C102_index_range, C102_missing_refuted, C102_padded, C102_relative_refuted, C102_subdirectory_refuted, C102_treated_index, C102_treated_other, C102_treated_outside, C102_unpadded_refuted, C103_constant, C103_gaussian_valid, C103_gaussian_vz_refuted, C103_interior, C103_iterations_refuted, C103_loaded_refuted, C103_median_valid, C103_not_valid, C103_reflect, C103_window, C104_class, C104_constructor, C104_coordinates_increase, C104_idempotent, C104_one_column_refuted, C104_roundtrip, C104_vz_refuted, C104_z_none_refuted, C105_extract, C105_grids_refuted, C105_history, C105_number_iff, C105_operators_refuted, C105_third_component, C105_values, C106_already, C106_extract_refuted, C106_extract_regular, C106_failure_refuted, C106_iff, C106_success, C107_default_step, C107_refused, C107_same_slices, C107_skip_raises_refuted, C107_skip_refuted, C107_step, C108_append_refuted, C108_display_refuted, C108_display_step, C108_extend_and_parts, C108_extend_array, C108_extend_self_iff, C108_extend_self_refuted, C108_items, C108_lost_refuted, C108_no_item, C108_no_times, C108_operations, C108_times, C108_times_iff, C109_new_dir_refuted, C109_no_server_refuted, C109_same_directory, C109_types, C10_can_always_finish, C10_fair_executions_end, C110_after_failure, C110_all_answered, C110_in_order, C110_lost_answer_refuted, C110_name_refuted, C110_no_failure, C110_one_job_refuted, C110_own_connection, C110_stop_refuted, C111_display, C111_div_fresh, C111_edge_order_refuted, C111_grid, C111_grid_iff, C111_no_steps_refuted, C111_norm_refuted, C111_rot_after_div, C111_rotation_refuted, C111_series_refuted, C111_stale_refuted, C111_time, C111_values, C112_again_partial, C112_complete_partial, C112_complete_subproc, C112_first, C112_images, C112_images_refuted, C112_multi_async_iff, C112_multi_async_refuted, C112_never_back, C112_removed_again, C112_removed_refuted, C112_retry_refuted, C113_durations, C113_filter_iff, C113_filter_refuted, C113_memory, C113_memory_refuted, C113_negative_refuted, C113_range, C113_spike_refuted, C113_workers, C115_collision_refuted, C115_history, C115_messages, C115_reports, C115_separable_iff, C115_slash_iff, C115_slash_refuted, C115_stop, C115_topologies, C117_apart_iff, C117_bare_refuted, C117_file, C117_history, C117_links, C117_links_iff, C117_nodes, C117_quote_refuted, C117_refused_refuted, C11_at_most_nb_max_workers_refuted, C11_one_work_of_each_kind, C11_running_bound_partial, C120_class, C120_first, C120_history, C120_new_refuted, C120_reload, C121_display, C121_display_last, C121_history, C121_params_refuted, C121_same, C124_follows, C124_index, C124_large_refuted, C124_no_times_refuted, C127_children, C127_children_refuted, C127_computed_saved_refuted, C127_end, C127_ends, C127_no_new_item_refuted, C127_one_place, C127_running_functions_finish, C128_accepted_iff, C128_mode, C128_new_dir, C128_parameters, C128_program, C128_refused, C128_same_dir, C128_unknown_mode, C128_windows, C128_without_patch, C129_blocked, C129_ends, C129_ends_iff, C129_refuted, C129_works, C12_chain_queue_bound, C12_queue_bound, C130_again, C130_asynchronous, C130_calls, C130_ends, C130_locked, C130_not_saved, C130_one_shot_refuted, C130_sequential, C130_sequential_iff, C130_swallowed_refuted, C131_larger_iff, C131_larger_refuted, C131_order_iff, C131_rows, C132_first, C132_new_object, C132_no_directory_refuted, C132_object, C132_saved_refuted, C133_blocks, C133_default_iff, C134_clear, C134_clear_refuted, C134_history, C134_image_refuted, C134_load, C134_lost_refuted, C134_memory_iff, C134_no_copy, C134_no_path_iff, C134_no_save, C134_no_save_refuted, C134_size, C134_stopped, C134_tmp_name_refuted, C135_array_iff, C135_cameras, C135_cams_refuted, C135_own_iff, C135_same_name_refuted, C136_coeffs, C136_levels, C136_lines, C136_negative, C136_number_iff, C136_sample, C136_sample_error_iff, C136_small_refuted, C137_again_refuted, C137_computed, C137_distinct, C137_distinct_refuted, C137_kind_iff, C137_light, C137_light_distinct, C137_light_no_series_refuted, C137_light_same_refuted, C137_light_series, C137_multi_again, C13_async_errors, C13_sequential_no_escape, C13_sequential_prefix, C13_sequential_stops_at_first_error, C14_async_delivers, C14_couple_of_one_image_raises, C14_couples_histories, C14_make_forms_all_available, C15_async_delivers, C15_make_forms_all_available, C15_subsets_histories, C16_async_close_couples_partial, C16_async_close_subsets_partial, C16_async_couples_blocked, C16_async_couples_ends_partial, C16_async_couples_iff, C16_async_subsets_blocked, C16_async_subsets_iff, C16_consecutive_couples_end, C16_refuted, C16_sequential_couples, C16_sequential_subsets, C16_subsets_refuted, C17_before_works, C17_count_partial, C17_no_output_refuted, C17_refuted, C17_series_partial, C18_last, C18_once, C18_raising_final_refuted, C18_repeated, C19_crash_prefix_partial, C19_crash_refuted, C19_lost_for_ever, C19_mixed_kinds_refuted, C19_never_repeats, C19_no_exception, C19_no_race_partial, C19_race_refuted, C19_save_is_complete, C20_end, C20_exclusive, C20_exit, C20_lock_outside_job_dir_refuted, C20_nothing_to_do, C20_release_twice, C20_running, C20_running_in_job_dir, C20_same_second_refuted, C20_second_start_refused, C21_ends_iff, C21_final_once, C21_final_raises_refuted, C21_nothing_to_do_not_finalised, C21_reports_failures, C21_results, C21_waits, C22_ask_no_dir, C22_ask_partial, C22_base_name, C22_new_dir, C22_path_object_refuted, C22_same_params_twice_refuted, C22_unknown_mode, C22_upper_case_refuted, C23_async_interrupted, C23_from_path_indices, C23_images_exact, C23_images_histories, C23_images_resume, C23_nothing_left, C23_piv_from_path_indices, C23_piv_sequential, C23_preproc_refuted, C23_same_name_refuted, C23_sequential, C23_sequential_nothing_refuted, C23_series_exact, C23_series_resume, C23_torn_file_refuted, C24_at_most_four, C24_least_loaded, C24_one_place, C24_premature_stop_refuted, C24_stop_done_partial, C24_stop_partial, C24_unoccupied_race_refuted, C25_can_end, C25_failed_read_refuted, C25_independent, C25_mean, C25_no_file, C25_overflow_refuted, C25_process, C26_async_never_ends_refuted, C26_async_refuted, C26_sequential_refuted, C26_without_im2im_async_partial, C26_without_im2im_partial, C27_one_image_refuted, C27_refuted, C28_coverage, C28_grid, C28_regular, C28_rejected, C28_windows, C29_difference, C29_inside, C29_loop, C29_refuted, C29_windows_partial, C30_displacement_max, C30_flagged, C30_maximum, C30_refuted, C30_search_window, C30_unflagged, C30_whole, C31_inverse, C31_inverse', C31_origin, C31_range, C32_in_bounds, C32_lag, C32_reordering, C33_period, C34_mean, C34_one_line_error, C35_displacement_max_refuted, C35_final, C35_fix, C35_no_threshold_refuted, C35_peaks, C35_peaks_no_threshold_refuted, C37_calcul, C37_correl, C37_integers, C37_numpy_int, C37_scalar, C37_windows, C37_wrong_length, C37_wrong_length_error, C38_bos, C38_bos_name, C38_defined, C38_names_partial, C38_same_shape_first, C38_same_shape_one, C38_same_shape_second, C38_step_refuted, C38_three_indices, C38_two_letters_refuted, C38_two_numbers_refuted, C39_codes, C39_heavy_partial, C39_multipass_partial, C39_no_pass, C39_stable, C39_string_keys_refuted, C39_subdomains_refuted, C40_file, C40_final, C40_last_by_index, C40_multipass_file_partial, C40_multipass_file_refuted, C40_other_passes, C40_refuted, C41_calcul, C41_complete_disjoint, C41_complete_singletons, C41_disjoint_partial, C41_interruption_refuted, C41_order_refuted, C41_overlap_complete_refuted, C41_resume_singletons, C41_step_refuted, C42_durations_partial, C42_log_partial, C42_nothing_refuted, C42_same_key_refuted, C42_space_refuted, C42_total, C43_init_refuted, C43_next_default, C43_no_default, C43_own_default_partial, C43_shift, C44_hours_refuted, C44_long, C44_short, C44_sixty_refuted, C46_kept, C46_partial, C46_refuted, C47_one_column_refuted, C47_one_row_refuted, C47_reshape, C48_square_partial, C48_square_refuted, C53_apply_once, C53_crop_partial, C53_failed_mask_refuted, C53_parse, C53_positions_iff, C53_positions_refuted, C53_round_trip, C54_accepted_iff, C54_defaults, C54_pair, C54_pair_ignored_refuted, C54_series_Di, C54_series_Dj_refuted, C54_tidy, C54_window, C55_default, C55_order, C55_stack_sequence_partial, C55_stack_sequence_refuted, C55_stack_tool, C55_subclass_refuted, C56_arguments_iff, C56_default_exists, C56_inconsistent, C56_never_another, C56_object_refuted, C56_runs_what_is_asked_partial, C56_stop_if_error, C56_unknown, C57_alignment, C57_grid, C57_grid_size, C57_limits_partial, C57_limits_refuted, C57_same_z, C58_mask_partial, C58_refuted, C58_second_partial, C59_refuted, C59_second_peak_partial, C60_default_partial, C60_direct_partial, C60_refuted, C62_from_piv, C62_orientation, C63_extract_indices, C63_extract_phys, C63_truncate, C64_average, C64_empty, C64_one_line_refuted, C64_other_grids_refuted, C65_fresh_partial, C65_view_refuted, C66_divh, C66_rotz, C66_small, C70_heights, C70_plot_slices_iff, C71_file, C71_memory, C71_old_file_refuted, C71_order, C72_image_points, C72_object_points, C72_object_points_iff, C76_window_iff, C76_window_partial, C76_window_refuted, C77_between, C77_integer_weight_iff, C77_integer_weight_refuted, C77_sliding_partial, C77_temporal, C77_temporal_negative_refuted, C78_default_maxima, C78_threshold_partial, C78_threshold_refuted, C79_complete_name, C79_missing_refuted, C79_once_partial, C81_async_blocked, C81_async_delivers, C81_async_ends_partial, C81_async_refuted, C81_sequential, C82_pixel_in_array, C83_no_reference_refuted, C83_reference, C84_float_frames, C84_illumination, C84_integer_refuted, C84_integer_two_levels, C85_borders, C85_borders_majority, C85_cropped_frame_partial, C85_cropped_frames_refuted, C85_twice_refuted, C85_whole_frames, C86_borders_zero_partial, C86_last_column_refuted, C86_left_refuted, C86_no_border_refuted, C87_after_end_partial, C87_crash_refuted, C87_decreasing_refuted, C87_duration_refuted, C87_frozen_refuted, C87_label_refuted, C87_last_update_partial, C87_late_process_refuted, C87_never_too_many, C87_no_file_refuted, C87_running, C87_sequential_refuted, C88_largest_name, C88_last_started_partial, C88_other_entry_refuted, C88_same_second_refuted, C89_can_end, C89_fail_partial, C89_fail_refuted, C89_no_message_refuted, C89_result, C89_stale_event_refuted, C89_twice_refuted, C90_errors, C90_global_refuted, C90_global_waits, C90_processes, C91_ask_refuted, C91_new_dir_refuted, C91_same_directory_partial, C92_crash_refuted, C92_exact, C92_progress, C93_first_grid, C93_refuted, C93_same_size_partial, C94_errors, C94_no_final_refuted, C94_only_nan, C94_passes, C94_smooth, C94_values, C96_cores, C96_digits, C96_import_refuted, C96_physical_iff, C96_refuted, C96_workers, C97_async, C97_distinct_files, C97_filter, C97_init, C97_names_refuted, C97_other_refuted, C97_path_refuted, C97_process_refuted, C97_sequential, contains_iff, range_list_meaning.

* Depends on `ClassicalDedekindReals.sig_forall_dec` — 19 theorems:
  C114_click, C114_correl, C114_images, C114_interp_partial, C114_interp_refuted, C114_keys_iff, C114_keys_refuted, C114_marks, C114_modified_refuted, C114_pure, C114_shown, C114_vector0_refuted, C114_without_correl, C119_file, C119_smooth, C119_smooth_refuted, C119_without, C98_grid, C98_no_line_refuted.

* Depends on `ClassicalDedekindReals.sig_forall_dec`, `FunctionalExtensionality.functional_extensionality_dep` — 49 theorems:
  C114_arrows, C114_modified_iff, C114_no_displacement_iff, C114_no_displacement_refuted, C116_adaptive_refuted, C116_equalize_iff, C116_factor_iff, C116_factor_refuted, C116_rescale, C116_rescale_uniform, C116_sharpen, C116_sharpen_float, C116_sharpen_iff, C119_read_x, C119_read_y_iff, C126_again_refuted, C126_arguments_refuted, C126_interface_refuted, C126_pixels, C126_same_array_refuted, C133_bright, C133_dark_image_refuted, C133_dark_refuted, C133_defined, C133_nearest, C133_seen_iff, C133_threshold, C49_displacement, C51_displacement, C51_intersection, C51_unique, C52_weights, C57_linspace, C68_grid_on_plane, C95_filter_iff, C95_motionless_refuted, C98_missing_level_refuted, C98_point_iff, C98_points, C98_undefined_iff, C99_blank_refuted, C99_history_partial, C99_index, C99_limits_partial, C99_limits_refuted, C99_reload_refuted, C99_step_refuted, C99_switch, C99_unreadable_refuted.

* Depends on `ClassicalDedekindReals.sig_forall_dec`, `ClassicalDedekindReals.sig_not_dec`, `FunctionalExtensionality.functional_extensionality_dep` — 89 theorems:
  C116_default_iff, C116_default_refuted, C116_default_used, C118_fft_iff, C118_fft_points, C118_light, C118_light_refuted, C118_max, C118_ndimage, C118_norm, C118_percent, C118_pycuda_iff, C118_pythran_iff, C118_range, C118_signal, C118_signal_iff, C118_signal_refuted, C118_valid_iff, C122_gain, C122_no_pattern, C122_odd_refuted, C122_rectify, C122_sinusoid, C122_wave, C123_added_refuted, C123_ok_iff, C123_points, C123_result, C125_displaced, C125_images, C125_ok_iff, C126_displacement, C126_facing, C126_opposite, C33_maximum, C33_one_pixel, C33_recovered_partial, C33_refuted, C33_values, C45_half_even_partial, C45_half_odd, C45_half_one, C45_numpy, C45_refuted, C49_aspect, C49_distance_iff, C49_distance_refuted, C49_origin, C50_distortion_iff, C50_fourth_slice_refuted, C50_physical_roundtrip, C50_roundtrip_flipped, C50_roundtrip_partial, C50_tilted_point, C50_tilted_refuted, C51_plane, C51_plane_error, C52_covered_partial, C52_covered_refuted, C52_no_buffer_iff, C61_bound, C61_fftw_even_partial, C61_one, C61_refuted, C67_doc_refuted, C67_omega_step, C67_psd2, C67_psd_partial, C67_waves, C68_common_x, C68_common_y_partial, C68_outside_refuted, C69_base, C69_base_matrices, C69_reconstruction_exact, C69_reconstruction_fails_iff, C69_same_axis_refuted, C82_correction, C82_infinite_refuted, C82_series, C83_correct_pos_refuted, C83_height_of_phase, C83_heights_of_given_phases, C83_smoothing_fails_iff, C95_lost_refuted, C95_no_feature_refuted, C95_vectors, C98_all_levels, C98_direction_partial.

* Depends on `ClassicalDedekindReals.sig_forall_dec`, `ClassicalDedekindReals.sig_not_dec`, `Classical_Prop.classic`, `FunctionalExtensionality.functional_extensionality_dep` — 35 theorems:
  C116_tanh, C116_tanh_formula_refuted, C116_tanh_nan, C116_tanh_order, C122_filter_range, C122_filter_zero_iff, C133_mean, C133_volume_refuted, C36_boundary, C36_centroid, C36_close_partial, C36_error, C36_flat_refuted, C36_gaussian, C36_gaussian_exact, C36_refuted, C52_affine, C52_interpolate, C52_interpolate_at_centers, C52_no_buffer_nan, C52_smoothed_partial, C73_affine, C73_field_at_centers, C73_interpolation, C73_moments, C74_gradient_iff, C74_gradient_partial, C74_gradient_refuted, C75_ends, C75_no_erratic, C75_threshold_refuted, C80_gaussian2_fit, C80_gaussian2_mirror, C80_gaussian2_refuted, C80_gaussian2_transpose.

<!-- end of assumptions -->
