{"id": "C01", "title": "Splitting a range loses and duplicates nothing", "statement": "Splitting range(start, stop, step) into n parts gives n ranges whose elements, concatenated in order, are exactly the elements of the original range, and the part sizes differ by at most one, the larger ones first.", "quantifier": "all integers start, stop, all non-zero steps (negative included), all n >= 1", "why_tests_cant": "The arithmetic uses floor division and a remainder; a test can only sample (start, stop, step, n).", "anchors": ["src/fluidimage/topologies/splitters.py:split_range"]}
{"id": "C02", "title": "Splitting a list loses and duplicates nothing", "statement": "Splitting a list of indices into n parts gives contiguous slices whose concatenation is the list; sizes differ by at most one; there are min(n, len) parts, all non-empty, or n empty parts when the list is empty.", "quantifier": "all lists of any element type, all n >= 1", "why_tests_cant": "Slice bounds involve min(), // and %; tests sample a few lengths.", "anchors": ["src/fluidimage/topologies/splitters.py:split_list"]}
{"id": "C03", "title": "Worker process i handles part i", "statement": "Among the parts produced by the splitters the empty ones come last, so skipping empty parts never shifts the numbering of the remaining ones: the k-th started process writes the progress file read as the k-th one.", "quantifier": "all ranges, lists and process counts", "why_tests_cant": "Needs all sizes relative to the number of processes.", "anchors": ["src/fluidimage/topologies/splitters.py:split_range", "src/fluidimage/topologies/splitters.py:split_list", "src/fluidimage/executors/multi_exec_async.py:_start_multiprocess_series", "src/fluidimage/executors/base.py:MultiExecutorBase.compute"]}
{"id": "C04", "title": "Index files round-trip", "statement": "The text file of indices written for a worker process is parsed back by that process to exactly the same list of indices, for integer indices and for tuples of integers; and two worker processes never share a file name.", "quantifier": "all lists of integers, all lists of integer tuples of any arity (including arity 1), all process numbers", "why_tests_cant": "Printing and parsing are inverse only if every sign, digit count, arity is right.", "anchors": ["src/fluidimage/topologies/splitters.py:save_indices_files", "src/fluidimage/topologies/base.py:_tuple_ints_from_str", "src/fluidimage/topologies/base.py:init_series", "src/fluidimage/topologies/base.py:fill_queue_paths"]}
{"id": "C05", "title": "The parts given to the worker processes cover the series exactly", "statement": "For a topology working on a series, the sub-ranges (or index lists in 'complete' mode) passed to the worker processes are pairwise disjoint and their union is the set of series indices to be computed.", "quantifier": "all index ranges/steps, all sets of already saved results, all numbers of processes", "why_tests_cant": "Any state of the result directory and any number of processes.", "anchors": ["src/fluidimage/topologies/splitters.py:SplitterFromSeries", "src/fluidimage/topologies/splitters.py:SplitterFromImages"]}
{"id": "C06", "title": "Waiting queues are first-in first-out maps", "statement": "A queue returns items in the order in which their keys were first inserted; setting an existing key keeps its place and replaces its value; deleting removes exactly one key; popping an empty queue raises KeyError; a copy is independent and equal.", "quantifier": "all sequences of set / pop-first / delete operations", "why_tests_cant": "Histories are unbounded.", "anchors": ["src/fluidimage/topologies/base.py:Queue"]}
{"id": "C07", "title": "The sequential executor computes the pipeline function for every item and stops", "statement": "For a chain of works, compute() with exec_sequential terminates, every input item goes exactly once through every work in order, and the value finally delivered for a key is the composition of the works applied to its input, where the first failing work replaces the value by its exception and later works are skipped for this item only.", "quantifier": "all pipelines lengths, all items, all work functions, all failing subsets", "why_tests_cant": "Every number of items, every length of the chain, every subset of failing items.", "anchors": ["src/fluidimage/executors/exec_sequential.py:_run_works", "src/fluidimage/topologies/base.py:Work.check_exception"]}
{"id": "C08", "title": "Asynchronous execution loses, duplicates and mixes nothing under any schedule", "statement": "Whatever the interleaving of tasks and completions, at every moment each input key is in exactly one place (a queue, an in-flight work, or delivered), and the value attached to it is the one obtained by applying to its input the works already passed; an exception of one item never changes another item.", "quantifier": "all interleavings of scheduler loops, worker starts and completions; all chains, items, failing subsets", "why_tests_cant": "Interleavings cannot be enumerated by tests.", "anchors": ["src/fluidimage/executors/exec_async.py:ExecutorAsync"]}
{"id": "C09", "title": "The asynchronous executor only stops when everything is done", "statement": "The executor decides to stop only when all items have been delivered by the last work; hence asynchronous and sequential executors deliver the same value for every key.", "quantifier": "all interleavings and all moments at which the stop condition may be evaluated", "why_tests_cant": "The stop condition is polled concurrently with the workers.", "anchors": ["src/fluidimage/executors/exec_async.py:update_has_to_stop", "src/fluidimage/executors/exec_async.py:async_run_work_io", "src/fluidimage/executors/exec_async.py:async_run_work_cpu"]}
{"id": "C10", "title": "A chain of works never deadlocks", "statement": "With at least one worker and a queue limit of at least one, in every reachable unfinished state of the asynchronous executor on a chain of works some work can make progress, and the amount of remaining work strictly decreases with every productive step, so that every fair execution stops.", "quantifier": "all reachable states, all limits >= 1", "why_tests_cant": "Liveness under back-pressure for all sizes and schedules.", "anchors": ["src/fluidimage/executors/exec_async.py:async_run_work_io", "src/fluidimage/executors/exec_async.py:update_has_to_stop"]}
{"id": "C11", "title": "No more than nb_max_workers CPU works run at once", "statement": "At any time at most nb_max_workers CPU works (and as many io works) run simultaneously.", "quantifier": "all interleavings", "why_tests_cant": "The check and the increment are in different tasks.", "anchors": ["src/fluidimage/executors/exec_async.py:async_launch_work_cpu"]}
{"id": "C12", "title": "The length of every waiting queue is bounded", "statement": "In an asynchronous execution a queue filled by an io or cpu work never holds more than nb_items_queue_max items plus the number of workers that can be in flight.", "quantifier": "all interleavings", "why_tests_cant": "Memory bound for every schedule.", "anchors": ["src/fluidimage/executors/exec_async.py"]}
{"id": "C13", "title": "stop_if_error really stops", "statement": "With stop_if_error the sequential executor raises the exception of the first failing item, and nothing is executed after it; without it no exception of a work escapes compute().", "quantifier": "all pipelines, all failing subsets", "why_tests_cant": "All positions of the first failure.", "anchors": ["src/fluidimage/executors/exec_sequential.py:_run_works"]}
{"id": "C14", "title": "PIV: every couple is formed once, with the right images, whatever the reading order", "statement": "For every order in which images become available, each couple of names is turned exactly once into the couple of the two corresponding images (or into the exception of the image which could not be read), never before both images are available, and no image needed by a remaining couple is dropped.", "quantifier": "all lists of couples (images shared between couples), all arrival orders and call times", "why_tests_cant": "The call times are decided by the scheduler.", "anchors": ["src/fluidimage/topologies/piv.py:make_couples"]}
{"id": "C15", "title": "Preprocessing: every subset is formed once, with the right images", "statement": "Same property for subsets of any size: each subset of names becomes exactly once the tuple of its images, in the order of the names, and no image still needed is dropped.", "quantifier": "all families of subsets, all arrival orders", "why_tests_cant": "Same.", "anchors": ["src/fluidimage/topologies/preproc.py:make_subsets"]}
{"id": "C16", "title": "The computation always ends, however far apart the images of a couple are", "statement": "compute() on a PIV or preprocessing topology ends for every str_subset, with every executor.", "quantifier": "all lists of couples/subsets, all queue limits", "why_tests_cant": "A deadlock depends on sizes relative to internal limits.", "anchors": ["src/fluidimage/executors/exec_async.py", "src/fluidimage/executors/exec_async_seq_for_multi.py", "src/fluidimage/topologies/piv.py", "src/fluidimage/topologies/preproc.py"]}
{"id": "C17", "title": "A work declared one shot is called once per execution", "statement": "During one compute() a work of kind 'one shot' is called exactly once.", "quantifier": "all topologies and executors", "why_tests_cant": "Depends on the topology attributes.", "anchors": ["src/fluidimage/executors/base.py:exec_one_shot_works", "src/fluidimage/executors/base.py:_init_num_expected_results_first_queue", "src/fluidimage/topologies/base.py:Work"]}
{"id": "C18", "title": "final_seq_work runs exactly once", "statement": "If the topology defines final_seq_work it is run exactly once per execution, after all works, in the main process.", "quantifier": "all executors, all numbers of calls of finalisation", "why_tests_cant": "History property.", "anchors": ["src/fluidimage/executors/base.py:_run_final_seq_work"]}
{"id": "C19", "title": "The saved list of results never misses or repeats a result", "statement": "In a worker process the file of result names is, after each save, a faithful record of the results: every result name appears once, in order, and the companion file holds their number.", "quantifier": "all interleavings of appending threads and saves, all crash points", "why_tests_cant": "Race and crash points.", "anchors": ["src/fluidimage/executors/base.py:_save_results_names"]}
{"id": "C20", "title": "Lock file life cycle", "statement": "While a job is running its directory contains the lock file; a second job cannot start on the same job directory; after release the lock is absent and the end time is recorded; releasing twice is harmless; a job with nothing to do creates no lock.", "quantifier": "all sequences of start/release/atexit events", "why_tests_cant": "History property.", "anchors": ["src/fluidimage/executors/base.py:_save_lock_file", "src/fluidimage/executors/base.py:_release_lock"]}
{"id": "C21", "title": "The multi-process executor waits for all processes and reports every failure", "statement": "MultiExecutor.compute returns only when every worker process has exited; the list of results is the concatenation of the results of all processes; if some process exits with a non-zero code a RuntimeError is raised after finalisation, otherwise none.", "quantifier": "all exit orders and exit codes", "why_tests_cant": "All interleavings of process exits with polling.", "anchors": ["src/fluidimage/executors/base.py:MultiExecutorBase.compute"]}
{"id": "C22", "title": "new_dir never writes in an existing directory", "statement": "With params.saving.how == 'new_dir' the result directory did not exist before, and it is the first free name among the base name and the base name followed by 0, 1, 2...; 'complete' and 'recompute' use the base name; answering the question selects the corresponding mode.", "quantifier": "all directory contents, all sequences of answers", "why_tests_cant": "Unbounded set of existing directories.", "anchors": ["src/fluidimage/topologies/base.py:prepare_path_dir_result"]}
{"id": "C23", "title": "'complete' computes exactly what is missing", "statement": "With how == 'complete' the works are run exactly for the items whose result file does not exist; re-running after an interruption at any point computes exactly the remaining items and after a full run nothing is left.", "quantifier": "all sets of existing results, all interruption points", "why_tests_cant": "Crash points.", "anchors": ["src/fluidimage/topologies/base.py:compute_indices_to_be_computed", "src/fluidimage/topologies/base.py:fill_queue_paths", "src/fluidimage/topologies/piv.py:compute_indices_to_be_computed", "src/fluidimage/topologies/preproc.py:compute_indices_to_be_computed"]}
{"id": "C24", "title": "Remote workers: the executor with servers does not stop too early and balances the load", "statement": "The servers executor stops only when all items are done; a job is always sent to an available worker with the smallest number of items and a worker never receives more than the allowed number of items.", "quantifier": "all interleavings of sends, replies and stop checks", "why_tests_cant": "Interleavings.", "anchors": ["src/fluidimage/executors/exec_async_servers.py", "src/fluidimage/executors/servers.py"]}
{"id": "C25", "title": "Mean image", "statement": "TopologyMean returns the sum of all images divided by their number, independently of the order of the partial reductions and of the distribution over processes; the number of recorded results equals the number of images.", "quantifier": "all numbers of images, all reading orders, all splits over processes", "why_tests_cant": "All reduction trees.", "anchors": ["src/fluidimage/topologies/mean.py"]}
{"id": "C26", "title": "BOS with an image-to-image function processes every image and ends", "statement": "TopologyBOS with params.preproc.im2im set computes every BOS field from the preprocessed image and compute() ends.", "quantifier": "all numbers of images", "why_tests_cant": "Wiring of the queues for all executions.", "anchors": ["src/fluidimage/topologies/bos.py:TopologyBOS.__init__"]}
{"id": "C27", "title": "Surface tracking in 'complete' mode ends", "statement": "Re-running a surface tracking computation with how == 'complete' ends, whatever the set of results already saved.", "quantifier": "all sets of existing results", "why_tests_cant": "All result directories.", "anchors": ["src/fluidimage/topologies/surface_tracking.py:fill_queue_paths", "src/fluidimage/topologies/surface_tracking.py:make_couples"]}
{"id": "C28", "title": "PIV grid: every interrogation window lies in the image", "statement": "The centres of the interrogation windows are inside the image such that the cropped windows of the first pass have exactly the requested shape, are regularly spaced, cover the image up to less than one step, and an image not larger than the window is rejected.", "quantifier": "all image sizes, window sizes, overlaps", "why_tests_cant": "All integer parameters.", "anchors": ["src/fluidimage/works/piv/singlepass.py:_prepare_with_image", "src/fluidimage/works/piv/singlepass.py:_init_crop", "src/fluidimage/works/piv/singlepass.py:_crop_im0"]}
{"id": "C29", "title": "Displaced windows stay inside the padded image", "statement": "In later passes, the displaced windows of both images are extracted at the displaced positions, with exactly the requested shape, and positions of the windows are consistent: the difference between the two window centres equals the integer displacement used.", "quantifier": "all image sizes, positions and displacement estimates", "why_tests_cant": "Corner cases of 2D displacement near the borders.", "anchors": ["src/fluidimage/works/piv/singlepass.py:WorkPIVFromDisplacement._calcul_positions_vectors_subimages", "src/fluidimage/works/piv/singlepass.py:_crop_im0"]}
{"id": "C30", "title": "The correlation peak is the maximum", "statement": "The peak indices are those of the largest non-NaN value of the searched window; an all-NaN correlation is reported as an error, never as a value; a peak on the border is flagged.", "quantifier": "all arrays (with NaN anywhere), all windows", "why_tests_cant": "All positions of NaN and ties.", "anchors": ["src/fluidimage/calcul/correl.py:nan_indices_max", "src/fluidimage/calcul/correl.py:_compute_indices_max"]}
{"id": "C31", "title": "Indices and displacements are inverse conversions", "statement": "Converting a displacement to correlation indices and back is the identity and zero displacement corresponds to the centre index of the correlation.", "quantifier": "all displacements and correlation sizes", "why_tests_cant": "All sizes (odd/even).", "anchors": ["src/fluidimage/calcul/correl.py:CorrelBase.compute_displacement_from_indices", "src/fluidimage/calcul/correl.py:CorrelBase.compute_indices_from_displacement"]}
{"id": "C32", "title": "The reordering of the FFT correlation puts zero displacement at the centre", "statement": "The reordering applied to the output of the FFT correlation is exactly reversal along both axes followed by the standard fft shift; the lag (dy, dx) is found at the index corresponding to this displacement.", "quantifier": "all array sizes (odd and even)", "why_tests_cant": "All sizes.", "anchors": ["src/fluidimage/calcul/correl.py:_like_fftshift"]}
{"id": "C33", "title": "A pure circular translation is recovered exactly", "statement": "If the second image is the first one translated circularly by an integer displacement, the correlation has its maximum at the indices of this displacement, and the displacement computed from these indices is the imposed one.", "quantifier": "all images, all sizes, all integer displacements", "why_tests_cant": "All images and sizes.", "anchors": ["src/fluidimage/calcul/correl.py:CorrelFFTNumpy", "src/fluidimage/calcul/correl.py:_like_fftshift"]}
{"id": "C34", "title": "Neighbour average ignores NaN and the centre", "statement": "The mean over neighbours is the average of the non-NaN values among the (up to) 8 neighbours, NaN if there is none or if the point itself is NaN.", "quantifier": "all arrays with at least two rows and two columns", "why_tests_cant": "All NaN patterns and border cases.", "anchors": ["src/fluidimage/calcul/mean_neighbors.py"]}
{"id": "C35", "title": "False-vector bookkeeping is consistent", "statement": "After the fix step the vectors set to NaN are exactly those recorded as errors with their original value, the others are unchanged, and applying the threshold criteria flags exactly the vectors violating them.", "quantifier": "all vector fields, thresholds", "why_tests_cant": "All fields and thresholds.", "anchors": ["src/fluidimage/works/piv/fix.py"]}
{"id": "C36", "title": "Subpixel refinement stays close to the peak", "statement": "The subpixel estimator returns a position at less than a bounded distance of the integer peak or raises PIVError; it never returns a far position.", "quantifier": "all correlation maps, peaks and methods", "why_tests_cant": "All maps.", "anchors": ["src/fluidimage/calcul/subpix.py"]}
{"id": "C37", "title": "Multipass: window sizes and number of passes", "statement": "The k-th pass uses the initial window divided by the product of the first k zoom coefficients; a coefficient list of wrong length is rejected; a scalar means a constant coefficient.", "quantifier": "all numbers of passes and coefficients", "why_tests_cant": "All lengths.", "anchors": ["src/fluidimage/works/piv/multipass.py"]}
{"id": "C38", "title": "Distinct inputs are saved in distinct files", "statement": "Two different couples (images) of the same series are saved under different file names.", "quantifier": "all pairs of couples", "why_tests_cant": "All index values.", "anchors": ["src/fluidimage/data_objects/piv.py:get_name_piv", "src/fluidimage/data_objects/piv.py:get_name_bos"]}
{"id": "C39", "title": "PIV results survive saving and loading", "statement": "Loading a saved PIV result gives back the saved quantities: vectors, positions, errors keyed by vector index, and thin-plate-spline data per subdomain.", "quantifier": "all results (any number of vectors, errors, subdomains)", "why_tests_cant": "All sizes; order of HDF5 groups.", "anchors": ["src/fluidimage/data_objects/piv.py:HeavyPIVResults._save_in_hdf5_object", "src/fluidimage/data_objects/piv.py:HeavyPIVResults._load_from_hdf5_object"]}
{"id": "C40", "title": "The light result contains the final pass", "statement": "make_light_result keeps positions and displacements of the chosen pass: each vector keeps its own x, y, dx, dy.", "quantifier": "all results, all passes", "why_tests_cant": "All passes.", "anchors": ["src/fluidimage/data_objects/piv.py:MultipassPIVResults.make_light_result"]}
{"id": "C41", "title": "Preprocessed images: what is saved is determined by the input", "statement": "For every subset the saved image(s) and names are determined by the parameters and the input images, not by the order in which subsets are processed; and 'complete' recognises the subsets already processed.", "quantifier": "all schedules, all families of subsets, all interruption points", "why_tests_cant": "Schedules.", "anchors": ["src/fluidimage/data_objects/preproc.py", "src/fluidimage/works/preproc/__init__.py:_make_dict_to_save", "src/fluidimage/topologies/preproc.py:compute_indices_to_be_computed"]}
{"id": "C42", "title": "Log files can be read back", "statement": "Analysing a log recovers, for every work launched and ended, its name, key and duration.", "quantifier": "all logs produced by the executors", "why_tests_cant": "All keys and interleavings of log lines.", "anchors": ["src/fluidimage/topologies/log.py", "src/fluidimage/executors/base.py:log_in_file"]}
{"id": "C43", "title": "The command-line launcher exposes every argument of the topology with its default", "statement": "The launcher builds its arguments from the signature of the topology: each argument gets its own default value.", "quantifier": "all signatures", "why_tests_cant": "All signatures.", "anchors": ["src/fluidimage/topologies/launcher.py"]}
{"id": "C44", "title": "Formatted durations denote the right duration", "statement": "The text produced for a duration in seconds denotes this duration, with minutes and seconds in [0, 60) and hours in [0, 24).", "quantifier": "all durations", "why_tests_cant": "All values around the boundaries.", "anchors": ["src/fluidimage/util/util.py:format_time_in_seconds"]}
{"id": "C45", "title": "Energy from Fourier coefficients equals energy in physical space", "statement": "The energy computed from the half-complex Fourier coefficients accounts for every mode with its multiplicity, for even and odd sizes.", "quantifier": "all sizes", "why_tests_cant": "Parity.", "anchors": ["src/fluidimage/calcul/fft.py"]}
{"id": "C46", "title": "reset_logger removes all handlers", "statement": "After reset_logger the fluidimage logger has no handler left.", "quantifier": "all numbers of handlers", "why_tests_cant": "All numbers.", "anchors": ["src/fluidimage/util/log.py:reset_logger"]}
{"id": "C47", "title": "Gridding of the vectors keeps every vector at its place", "statement": "reshape_on_grid_final returns 2D arrays X, Y, U, V such that the vector stored at (X[i,j], Y[i,j]) is the one given at this position, for both orderings and increasing or decreasing coordinates.", "quantifier": "all grids with at least 2 columns and 2 rows", "why_tests_cant": "All sizes and orderings.", "anchors": ["src/fluidimage/postproc/util.py"]}
{"id": "C48", "title": "extract_square returns a centred square", "statement": "extract_square returns a field with as many rows as columns, inside the original field.", "quantifier": "all shapes and cuts", "why_tests_cant": "All shapes.", "anchors": ["src/fluidimage/postproc/vector_field.py:extract_square"]}
{"id": "C49", "title": "Calibration: the two reference points are at the given distance", "statement": "With Calibration2DSimple the physical distance between the two calibration points is the distance given by the user, the reference point is mapped to the given origin and displacements are differences of physical positions.", "quantifier": "all points, distances, aspect ratios", "why_tests_cant": "All real inputs.", "anchors": ["src/fluidimage/calibration/calib2d_simple.py"]}
{"id": "C50", "title": "Tsai calibration: pixel to physical and back", "statement": "Converting a pixel to physical coordinates on a plane and back gives the pixel again.", "quantifier": "all camera parameters, pixels and planes", "why_tests_cant": "All parameters.", "anchors": ["src/fluidimage/calibration/calib_tsai.py"]}
{"id": "C51", "title": "Direct calibration: the computed point is on the plane and on the optical path", "statement": "intersect_with_plane returns a point of the plane that lies on the optical path of the pixel, whenever they are not parallel.", "quantifier": "all planes and lines", "why_tests_cant": "All reals.", "anchors": ["src/fluidimage/calibration/calib_direct.py:intersect_with_plane"]}
{"id": "C52", "title": "Thin plate splines with subdomains: every point is covered", "statement": "Every data point belongs to at least one subdomain with positive weight, so that the smoothed field is a weighted average (weights summing to one) of the fields of the subdomains containing the point.", "quantifier": "all point sets, subdomain sizes, buffers", "why_tests_cant": "All geometries.", "anchors": ["src/fluidimage/calcul/interpolate/thin_plate_spline_subdom.py"]}
{"id": "C53", "title": "Mask coordinates are converted back and forth exactly", "statement": "Converting positions in the cropped image to positions in the original image and back is the identity and the pixel found at the converted position in the original image is the pixel of the cropped image.", "quantifier": "all crops, positions", "why_tests_cant": "All crops.", "anchors": ["src/fluidimage/works/with_mask.py", "src/fluidimage/data_objects/piv.py:get_slices_from_strcrop"]}
{"id": "C54", "title": "UVmat instructions are translated faithfully", "statement": "The series parameters produced from UVmat instructions select exactly the images described by the instructions (first, last, increment, pair mode).", "quantifier": "all instructions", "why_tests_cant": "All index ranges and modes.", "anchors": ["src/fluidimage/uvmat.py"]}
{"id": "C55", "title": "Preprocessing tools are applied in the configured order and only if enabled", "statement": "The preprocessing applies exactly the enabled tools, in the order of the sequence, and applying a tool to a stack of images is applying it to each image.", "quantifier": "all sequences, enabled subsets and stacks", "why_tests_cant": "All sequences.", "anchors": ["src/fluidimage/works/preproc/toolbox.py:apply", "src/fluidimage/works/preproc/io.py"]}
{"id": "C56", "title": "compute() selects the executor asked for", "statement": "compute() runs the executor asked for (by name, by sequential=True or as an object) with the given options, or raises when the request is inconsistent or unknown.", "quantifier": "all combinations of arguments", "why_tests_cant": "All combinations.", "anchors": ["src/fluidimage/topologies/base.py:TopologyBase.compute"]}
{"id": "C57", "title": "Tomography: grid and projected pixels are aligned", "statement": "Row i of the projected pixels corresponds to row i of the voxel grid and the limits recorded are the limits given.", "quantifier": "all grids", "why_tests_cant": "All sizes.", "anchors": ["src/fluidimage/data_objects/tomo.py", "src/fluidimage/reconstruct/tomo/mlos.py:phys2pix"]}
{"id": "C58", "title": "The second chance looks for another peak", "statement": "When the largest correlation value is flagged (on the border or next to a NaN), the search is done a second time without the neighbourhood of this peak (values at a distance at most particle_radius along each axis), and the displacement returned, if any, is the one of the largest remaining value.", "quantifier": "all correlations, radii, positions of the peak", "why_tests_cant": "All positions, close to all borders.", "anchors": ["src/fluidimage/calcul/correl.py:CorrelBase.compute_displacements_from_correl"]}
{"id": "C59", "title": "Secondary peaks are other peaks", "statement": "The secondary peaks returned with nb_peaks >= 2 are maxima of the correlation without the neighbourhoods of the peaks returned before: no peak is returned twice and the list is never longer than asked.", "quantifier": "all correlations, radii, numbers of peaks", "why_tests_cant": "All positions.", "anchors": ["src/fluidimage/calcul/correl.py:CorrelBase.compute_displacements_from_correl"]}
{"id": "C60", "title": "The direct correlation is the mean of the products over the overlap", "statement": "The value of the direct correlation for a displacement is the sum of the products of the pixels of the two windows, divided by the number of terms of the overlap, and no pixel out of the windows is read.", "quantifier": "all sizes of the two windows, all images", "why_tests_cant": "All parities of the sizes.", "anchors": ["src/fluidimage/calcul/correl.py:correl_numpy", "src/fluidimage/calcul/correl.py:CorrelPythran"]}
{"id": "C61", "title": "The normalised FFT correlation is bounded by one", "statement": "The correlation divided by its norm is between -1 and 1 for all images, and it is 1 at the displacement between two images which are translated of each other.", "quantifier": "all images, all sizes", "why_tests_cant": "All images, parity of the sizes.", "anchors": ["src/fluidimage/calcul/correl.py:CorrelFFTNumpy", "src/fluidimage/calcul/correl.py:CorrelFFTWithOperBase", "src/fluidimage/calcul/fft.py"]}
{"id": "C62", "title": "A vector field has increasing coordinates and the given vector at each position", "statement": "The object built from coordinates (or from the vectors of a PIV result) has increasing x and y and, at each position, the vector that was given there, whatever the orientation of the input.", "quantifier": "all monotone coordinates, all values", "why_tests_cant": "All orientations and sizes.", "anchors": ["src/fluidimage/postproc/vector_field.py:VectorFieldOnGrid.__init__", "src/fluidimage/postproc/vector_field.py:VectorFieldOnGrid.from_file"]}
{"id": "C63", "title": "Extraction keeps exactly the asked points", "statement": "extract returns the rows and columns asked for with their vectors; with physical bounds, exactly the points inside the bounds (bounds included); truncate removes the same number of points on each side.", "quantifier": "all fields with increasing coordinates, all bounds", "why_tests_cant": "All sizes and bounds.", "anchors": ["src/fluidimage/postproc/vector_field.py:extract", "src/fluidimage/postproc/vector_field.py:truncate"]}
{"id": "C64", "title": "The time average of fields is the mean at each position", "statement": "The time average of an array of fields gives, at each position, the mean of the vectors of the fields at this position.", "quantifier": "all nonempty lists of fields", "why_tests_cant": "All sizes and numbers of fields.", "anchors": ["src/fluidimage/postproc/vector_field.py:compute_time_average", "src/fluidimage/postproc/vector_field.py:__add__"]}
{"id": "C65", "title": "A function of the spatio-temporal data is applied to each component", "statement": "apply_function_to_spatiotemp_data returns fields whose x component is the function of the x components and whose y component is the function of the y components.", "quantifier": "all functions, whether they return a new array or a view on their argument", "why_tests_cant": "Memory aliasing.", "anchors": ["src/fluidimage/postproc/vector_field.py:apply_function_to_spatiotemp_data"]}
{"id": "C66", "title": "The curl and the divergence are second order", "statement": "On a regular grid compute_rotz and compute_divh are exact for fields which are polynomials of degree two of the position, at all the points including the borders.", "quantifier": "all regular grids with at least 3 points in each direction, all polynomials", "why_tests_cant": "All sizes and coefficients.", "anchors": ["src/fluidimage/postproc/vector_field.py:compute_rotz", "src/fluidimage/postproc/vector_field.py:compute_divh"]}
{"id": "C67", "title": "The spectra describe the signal and have the documented normalisation", "statement": "compute_1dspectrum returns pulsations and complex coefficients whose waves sum up to the signal, and a power spectral density with sum(signal**2) * dx / Lx = sum(psd) * domega.", "quantifier": "all signals, all sizes (even and odd)", "why_tests_cant": "All signals.", "anchors": ["src/fluidimage/postproc/util.py:compute_1dspectrum", "src/fluidimage/postproc/util.py:compute_2dspectrum"]}
{"id": "C68", "title": "Stereo: the common grid is in both fields of view", "statement": "find_common_grid returns points of the laser plane whose coordinates are between the smallest and largest coordinates seen by each of the two cameras.", "quantifier": "all sets of points seen by the two cameras whose fields overlap, all planes which are not vertical", "why_tests_cant": "All sets of points.", "anchors": ["src/fluidimage/calibration/calib_direct.py:DirectStereoReconstruction.find_common_grid"]}
{"id": "C69", "title": "Stereo: the reconstruction of a displacement seen by two cameras is this displacement", "statement": "For any two distinct cameras which look down at different angles, the reconstruction object can be built, the base of each camera is orthonormal with its last vector along the optical paths, and the three components reconstructed from the displacements seen by the two cameras are the ones of the real displacement, with zero estimated errors.", "quantifier": "all pairs of viewing directions, all displacements", "why_tests_cant": "All directions and displacements.", "anchors": ["src/fluidimage/calibration/calib_direct.py:DirectStereoReconstruction", "src/fluidimage/calibration/util.py:get_base_from_normal_vector"]}
{"id": "C70", "title": "Tomography: the displayed slices are slices of constant height", "statement": "plot_slices shows, as image number k, the intensities of the voxels whose height is the k-th one.", "quantifier": "all shapes of voxel arrays", "why_tests_cant": "All shapes.", "anchors": ["src/fluidimage/data_objects/tomo.py:ArrayTomoBase.plot_slices", "src/fluidimage/data_objects/tomo.py:ArrayTomoCV"]}
{"id": "C71", "title": "Tomography: the intensity of a voxel is the product over the cameras", "statement": "After one call of reconstruct for each camera, the intensity of each voxel is the product over the cameras of the n-th root of the image intensity at the pixel of the voxel, whatever the order of the cameras and whether the results are kept in memory or saved in the file.", "quantifier": "all numbers of cameras, orders, intensities, initial contents of the results directory", "why_tests_cant": "All histories of calls and files.", "anchors": ["src/fluidimage/reconstruct/tomo/mlos.py:TomoMLOSBase.reconstruct"]}
{"id": "C72", "title": "Calibration target: image points and object points are in the same order", "statement": "For a target of nx by ny circles, construct_object_points lists the circles in the order in which detect_grid returns their images, so that they can be given together to the calibration.", "quantifier": "all odd numbers nx and ny, all orders of detection", "why_tests_cant": "All sizes and orders.", "anchors": ["src/fluidimage/calibration/calib_cv.py:construct_object_points", "src/fluidimage/calibration/calib_cv.py:SimpleCircleGrid.detect_grid"]}
{"id": "C73", "title": "Thin plate splines reproduce the data", "statement": "Without smoothing the thin plate spline goes through the data; with any smoothing the mean and the first moments of the smoothed data are those of the data, data which depend linearly on the position are reproduced exactly at all positions, and the field evaluated at the centers is the smoothed field.", "quantifier": "all sets of centers, values, smoothing coefficients, evaluation positions", "why_tests_cant": "All numbers and positions of centers.", "anchors": ["src/fluidimage/calcul/interpolate/thin_plate_spline.py:compute_tps_weights", "src/fluidimage/calcul/interpolate/thin_plate_spline.py:ThinPlateSpline.compute_field"]}
{"id": "C74", "title": "Thin plate splines: the gradient is the gradient of the field", "statement": "compute_gradient returns the partial derivatives of the interpolated field.", "quantifier": "all centers, weights and positions which are not centers", "why_tests_cant": "All weights and positions (limits).", "anchors": ["src/fluidimage/calcul/interpolate/thin_plate_spline.py:ThinPlateSpline.compute_gradient"]}
{"id": "C75", "title": "Thin plate splines: the replacement of the erratic vectors ends", "statement": "The iterative replacement of erratic vectors ends for every field and leaves a field without erratic vector as the smoothing alone would; the threshold is optional.", "quantifier": "all fields, thresholds and subdomains", "why_tests_cant": "All fields, unbounded loop.", "anchors": ["src/fluidimage/calcul/interpolate/thin_plate_spline_subdom.py:ThinPlateSplineSubdom.compute_tps_weights_iter"]}
{"id": "C76", "title": "The window of the temporal filters covers more than one image", "statement": "The temporal filters accept the documented windows (None, an int, a tuple or list of two or three numbers) and use a window of more than one image, or raise ValueError.", "quantifier": "all shapes of arrays, all values of window_shape", "why_tests_cant": "All windows.", "anchors": ["src/fluidimage/works/preproc/_toolbox_py.py:_calcul_windowshape", "src/fluidimage/works/preproc/_toolbox_py.py:temporal_median"]}
{"id": "C77", "title": "The subtraction of the background gives intensities between zero and the original ones", "statement": "The sliding and temporal filters return max(0, img - weight * background) for every image type and weight.", "quantifier": "all images, dtypes, weights and backgrounds", "why_tests_cant": "All pixels values and dtypes.", "anchors": ["src/fluidimage/works/preproc/_toolbox_py.py:sliding_median", "src/fluidimage/works/preproc/_toolbox_py.py:temporal_median"]}
{"id": "C78", "title": "The global threshold trims the intensities", "statement": "global_threshold returns the image with the intensities clamped in the interval (minima, maxima), the other ones being unchanged.", "quantifier": "all images, dtypes and thresholds", "why_tests_cant": "All pixel values and dtypes.", "anchors": ["src/fluidimage/works/preproc/_toolbox_py.py:global_threshold"]}
{"id": "C79", "title": "The subsets of a preprocessing save every image once", "statement": "When the preprocessing work is told the rank of the subset among the subsets (first, middle, last), the images saved by all the subsets together are exactly the images of the serie: every image is saved once, in order, and the saved image is the one processed for this file name.", "quantifier": "every number of images per subset, every number of values of the two indices of the file names, every number of subsets", "why_tests_cant": "The number of subsets and the sizes of the subsets are unbounded; the missing images only appear for even numbers of values of the first index with a second index.", "anchors": ["src/fluidimage/data_objects/preproc.py:get_ind_middle", "src/fluidimage/data_objects/preproc.py:get_Ni_Nj", "src/fluidimage/data_objects/preproc.py:get_name_preproc", "src/fluidimage/works/preproc/__init__.py:WorkPreproc._make_dict_to_save"]}
{"id": "C80", "title": "On a peak of Gaussian shape the subpixel methods give its centre", "statement": "If the correlation around its maximum has the shape of a Gaussian, the subpixel methods based on a Gaussian return the centre of this Gaussian; exchanging the two directions (or mirroring a direction) of the correlation exchanges (mirrors) the result.", "quantifier": "every correlation map, every position of the maximum, every width and centre of the Gaussian", "why_tests_cant": "The values are real numbers and the shapes are unbounded; a test only tries some centres.", "anchors": ["src/fluidimage/calcul/subpix.py:compute_subpix_2d_gaussian2", "src/fluidimage/calcul/subpix.py:SubPix.compute_subpix"]}
{"id": "C81", "title": "Surface tracking corrects each image once against its corrected predecessor and ends", "statement": "When the surface tracking topology is computed on a serie of images (none already saved), every image is read and processed exactly once; every image is corrected exactly once, with the corrected angle of the image just before it in the serie (the first one with itself); the height of every corrected image is computed and saved exactly once; nothing is left in the queues and the computation ends, whatever the order in which the images are read.", "quantifier": "every number of images, every works (which may fail), every schedule of the tasks, every number of workers and limit of the queues, sequential and asynchronous executors", "why_tests_cant": "The chain of corrections depends on the order in which concurrent works end; tests see a few schedules on a few images.", "anchors": ["src/fluidimage/topologies/surface_tracking.py:TopologySurfaceTracking.make_couples", "src/fluidimage/topologies/surface_tracking.py:TopologySurfaceTracking.fill_queue_paths", "src/fluidimage/topologies/surface_tracking.py:TopologySurfaceTracking.__init__", "src/fluidimage/executors/exec_async.py"]}
{"id": "C82", "title": "Surface tracking: the phase of each image is corrected by a multiple of 2 pi", "statement": "The correction of a couple of phases ends; it moves the whole phase of the image by one multiple of 2 pi, chosen such that at the reference pixel (which is always in the array) the phase is within pi of the corrected phase of the previous image, and leaves it unchanged when it was already; hence along a series two successive corrected phases differ by at most pi at this pixel.", "quantifier": "every arrays of phases (real numbers at the reference pixel, anything elsewhere), every sizes and reduction factors, series of any length", "why_tests_cant": "It is a while loop on real values: tests see a few jumps.", "anchors": ["src/fluidimage/works/surface_tracking.py:WorkSurfaceTracking.correctcouple"]}
{"id": "C83", "title": "Surface tracking: the heights computed from the phases", "statement": "The height given for the phase of a point of height h is h; with correct_height the reference frame itself has the height offset; with correct_pos the positions of the heights are corrected; the heights can be computed for any phases, and when no reference images are given the default wave vector is used.", "quantifier": "every phases (with NaN), every distances, wave lengths, shapes and offsets", "why_tests_cant": "Tests use one film and do not look at the heights.", "anchors": ["src/fluidimage/works/surface_tracking.py:WorkSurfaceTracking.convphase", "src/fluidimage/works/surface_tracking.py:WorkSurfaceTracking.calculheight_func", "src/fluidimage/works/surface_tracking.py:WorkSurfaceTracking.process_ref", "src/fluidimage/works/surface_tracking.py:WorkSurfaceTracking.compute_kx"]}
{"id": "C84", "title": "Surface tracking: normalisation of the frames", "statement": "In the normalised frame each pixel is its intensity divided by the mean of its line, minus one: the mean of each line is zero, different intensities stay different, and the illumination of a line does not matter.", "quantifier": "every frames (any size, any dtype) whose lines have non-zero means", "why_tests_cant": "The effect depends on the dtype of the images and is only visible in the values.", "anchors": ["src/fluidimage/works/surface_tracking.py:WorkSurfaceTracking.frame_normalize", "src/fluidimage/works/surface_tracking.py:WorkSurfaceTracking.process_frame"]}
{"id": "C85", "title": "Surface tracking: the result for an image depends on this image only", "statement": "With crop_edge the borders of the plate are found in the image, its columns are put in the reference frame, and the frame obtained does not depend on the images processed before.", "quantifier": "every reference frame, image, threshold, window, and every sequence of images processed with the same object", "why_tests_cant": "Tests process images once and in one order.", "anchors": ["src/fluidimage/works/surface_tracking.py:WorkSurfaceTracking.get_borders", "src/fluidimage/works/surface_tracking.py:WorkSurfaceTracking.merge_cropped_frame", "src/fluidimage/works/surface_tracking.py:WorkSurfaceTracking.process_frame_func"]}
{"id": "C86", "title": "Surface tracking: heights set to zero on the borders", "statement": "In the saved image the first and last borders columns are zero and the other columns are the heights computed for these columns (resized when the plate was cropped), for every borders.", "quantifier": "every heights, windows, borders, positions of the plate and every resize function", "why_tests_cant": "Tests use the default border and do not compare columns.", "anchors": ["src/fluidimage/works/surface_tracking.py:WorkSurfaceTracking.set_borders_zero_func"]}
{"id": "C87", "title": "The monitor shows the state of the job", "statement": "fluidimage-monitor displays the number of results of the job, whether it is running, and the times; the numbers never exceed what has been computed, never go down, and once the job is ended they are the final ones.", "quantifier": "every job, interleaving of the writes of the processes and of the reads of the monitor, moment when the monitor is started and number of ticks of its timer", "why_tests_cant": "Depends on the interleaving of two programs which share files.", "anchors": ["src/fluidimage/gui/monitor.py:MonitorApp.detect_results", "src/fluidimage/gui/monitor.py:MonitorApp.update_info", "src/fluidimage/gui/monitor.py:MonitorApp.compute_times_str", "src/fluidimage/executors/base.py:ExecutorBase"]}
{"id": "C88", "title": "The monitor chooses the last started job", "statement": "Without a job given by the user, fluidimage-monitor shows the job of the directory which was started last, whatever the other entries of the directory.", "quantifier": "every directory content: jobs with any starting times, process numbers and indices, and other entries", "why_tests_cant": "Any set of names, times and process numbers.", "anchors": ["src/fluidimage/gui/monitor.py:MonitorApp.__init__", "src/fluidimage/executors/base.py:ExecutorBase"]}
{"id": "C89", "title": "Executor exec_async_multi: one process computes one item", "statement": "A function run in a process gives its result (or its exception) to the parent, the function is called exactly once per item, no process of the item is left running, and the parent is not blocked whatever happens in the process.", "quantifier": "every interleaving of the parent and of the processes it starts (including slow starts), every outcome of the function: value, exception, value which cannot be sent, death of the process", "why_tests_cant": "Slow starts, deaths and interleavings cannot be enumerated by tests.", "anchors": ["src/fluidimage/executors/exec_async_multiproc.py:ExecutorAsyncMultiproc.async_run_work_cpu", "src/fluidimage/executors/exec_async_multiproc.py:exec_work_and_comm"]}
{"id": "C90", "title": "Splitting of the first queue between processes", "statement": "For a topology without series, multi_exec_async gives each item of the first queue to exactly one process, in the order and in balanced parts; each process runs the same topology (without the first work) on its items, its works being called in the same conditions as in one process.", "quantifier": "every topology (queues, works with one or several input and output queues), every content of the first queue, every number of processes", "why_tests_cant": "Any graph of works and queues; the objects are shared between the copies made for the processes.", "anchors": ["src/fluidimage/executors/multi_exec_async.py:MultiExecutorAsync._start_multiprocess_first_queue", "src/fluidimage/executors/base.py:ExecutorBase._init_num_expected_results_first_queue", "src/fluidimage/executors/exec_async.py:ExecutorAsync.define_functions"]}
{"id": "C91", "title": "All processes of a computation save in the same directory", "statement": "With the executors based on subprocesses, all processes save their results in the directory of results of the topology, without asking questions and without creating other directories, for every saving mode.", "quantifier": "every file system, saving mode, answers of the user, saving path and moment when a process starts", "why_tests_cant": "Depends on the state of the file system and on the answers of the user at the start of each process.", "anchors": ["src/fluidimage/executors/multi_exec_subproc.py:MultiExecutorSubproc", "src/fluidimage/run_from_xml.py:main", "src/fluidimage/topologies/base.py:prepare_path_dir_result", "src/fluidimage/topologies/base.py:TopologyBase._init_path_dir_result"]}
{"id": "C92", "title": "Progress shown by the multi-process executors", "statement": "The number of results displayed by the parent never goes down, never exceeds the number of results of the processes, the first result is announced once, and the last number is the number of results.", "quantifier": "every number of processes, interleaving of their writes with the turns of the waiting loop (files missing or being written), and every exit of the processes", "why_tests_cant": "Depends on the timing of several processes.", "anchors": ["src/fluidimage/executors/base.py:MultiExecutorBase.compute"]}
{"id": "C93", "title": "A PIV work gives the same result whatever it computed before", "statement": "WorkPIV.calcul(couple) gives the same result for a fresh object and for an object which already processed any other couples (with or without errors).", "quantifier": "every history of couples, every couple, every parameters (windows, overlap, number of passes, interpolation)", "why_tests_cant": "the grids are kept in the object at the first call: tests process one couple, or couples of one size", "anchors": ["src/fluidimage/works/piv/singlepass.py:BaseWorkPIV.calcul", "src/fluidimage/works/piv/singlepass.py:BaseWorkPIV._prepare_with_image", "src/fluidimage/works/piv/singlepass.py:WorkPIVFromDisplacement.calcul", "src/fluidimage/works/piv/multipass.py:WorkPIV.calcul"]}
{"id": "C94", "title": "Passes of a PIV computation: interpolation of the valid vectors on the next grid", "statement": "A PIV computation with n passes gives n results: the first pass uses the windows centred on its grid; each next pass uses at each node of its grid windows displaced by the rounded interpolation, at this node, of the valid vectors (and only these ones) of the previous pass, in the coordinates of the cropped image; the positions recorded for the interpolated values are those of the nodes in the original image; the final field is the interpolation of the valid vectors of the last pass at the nodes of its grid; in the smooth field a valid vector keeps its own position. A computation which ends without error has a final field.", "quantifier": "every images, grids, masks, number of passes, wrong vectors, interpolation method", "why_tests_cant": "depends on the order of the points in five arrays, on the places of the NaN and on failures of the interpolation", "anchors": ["src/fluidimage/works/piv/multipass.py:WorkPIV.calcul", "src/fluidimage/works/piv/singlepass.py:BaseWorkPIV.apply_interp", "src/fluidimage/works/piv/singlepass.py:WorkPIVFromDisplacement.calcul", "src/fluidimage/calcul/interpolate/griddata.py:griddata"]}
{"id": "C95", "title": "The optical flow gives the tracked features", "statement": "The work of optical flow returns one vector per feature found in the first image which is recovered by tracking back (difference smaller than the threshold) and whose displacement is between the minimum and the maximum given in the parameters: at the position of the feature in the whole image, with its own displacement, in the order of the features. A feature which has been lost gives no vector, a motionless feature is only removed by a minimum, and images without any feature give an empty field.", "quantifier": "every couple of images, every answer of the two OpenCV functions, every threshold and every combination of the two bounds", "why_tests_cant": "depends on the alignment of the arrays through two filters and on the answers of the tracker for lost features", "anchors": ["src/fluidimage/works/optical_flow.py:optical_flow", "src/fluidimage/works/optical_flow.py:WorkOpticalFlow.calcul"]}
{"id": "C96", "title": "Default number of cores and of workers", "statement": "On Linux the number of cores used by default is the number of CPUs the process is allowed to use, without the second threads of the cores unless the user allows hyperthreading in the configuration; elsewhere it is the number of CPUs. The number of workers is the argument, or the option, or depends on the number of cores. The module can be imported whatever the file of configuration says (true or false in any case) and whatever the system files contain.", "quantifier": "every mask of CPUs, every machine (processors, cores, threads), every content of the files and of the option", "why_tests_cant": "the tests run on one machine", "anchors": ["src/fluidimage/topologies/nb_cpu_cores.py", "src/fluidimage/config.py:get_config", "src/fluidimage/executors/base.py:ExecutorBase.__init__"]}
{"id": "C97", "title": "Images processed by a function of the user", "statement": "A function, a class or any callable object (or the text of its import path) given as im2im is called exactly once with the tuple (path, image) for each image of the series, and each image it returns is saved once under the name of the input image (or returned with the same path); the same argument is used by the topology, the filter of a series, the display and process_1_image. Names given with arrays are the names used in the result.", "quantifier": "every function of the user (with exceptions), every set of images, unreadable images, every schedule of the asynchronous executor", "why_tests_cant": "the argument depends on the entry point; the files depend on the schedule and on the failures", "anchors": ["src/fluidimage/topologies/image2image.py:TopologyImage2Image", "src/fluidimage/works/image2image.py:init_im2im_function", "src/fluidimage/works/image2image.py:WorkImage2Image", "src/fluidimage/image2image.py:apply_im2im_filter", "src/fluidimage/works/__init__.py:BaseWorkFromImage.process_1_image", "src/fluidimage/works/__init__.py:BaseWorkFromSerie.calcul_from_arrays"]}
{"id": "C98", "title": "Optical path of a pixel (direct calibration)", "statement": "If the physical points given by the calibration levels for a pixel are on one optical path, the line computed for this pixel is this path: its point is on the path and its direction is the unit vector of the path, upwards, even if some levels do not see the pixel. A line is given as soon as two levels see the pixel. The points of a calibration file are read with their own coordinates and pixels, and the arrays of the optical paths have at each node its own line.", "quantifier": "every number of levels, every optical path which is not horizontal, every set of levels which see the pixel, every singular value decomposition", "why_tests_cant": "depends on which levels see the pixel and on the choice of the singular vectors", "anchors": ["src/fluidimage/calibration/calib_direct.py:get_points", "src/fluidimage/calibration/calib_direct.py:CalibDirect.pixel2line", "src/fluidimage/calibration/calib_direct.py:CalibDirect.compute_interpolents_pixel2line"]}
{"id": "C99", "title": "Image viewer", "statement": "After any sequence of clicks (+1, -1, +n, -n, reload, auto), of alt+s and of values entered for n and for the colour limits, the image seen is the one whose name is in the title: the image number (first + sum of the steps) modulo the number of images, with the colour limits asked for. Two alt+s come back to the same image. An image which cannot be read or a bad value of n does not prevent from seeing the others.", "quantifier": "every sequence of events, every number of images, unreadable images, every text", "why_tests_cant": "the images already loaded, the layers of the figure and the flags depend on the whole history", "anchors": ["src/fluidimage/gui/imviewer.py:ImageViewer", "src/fluidimage/gui/base_matplotlib.py:AppMatplotlibWidgets"]}
{"id": "C100", "title": "Viewer of PIV files", "statement": "After any sequence of clicks on -1 and +1 and of texts entered in the box, the file displayed is the one asked for (modulo the number of files for the buttons, the closest existing number for the box, no change for a text which is not an integer), its number is in the box and its name in the title, and the arrows are its final vectors at their positions. The vectors of a file are those of its last pass.", "quantifier": "every sequence of events and texts, every number of files and of passes, unreadable files, files with different grids", "why_tests_cant": "depends on the history of the window and on callbacks which call each other through the text box", "anchors": ["src/fluidimage/gui/piv_viewer.py:VectorFieldsViewer", "src/fluidimage/gui/piv_viewer.py:get_piv_data_from_path"]}
{"id": "C101", "title": "Grid recomputed from a PIV result", "statement": "get_grid_pixel, called on a PIV result or on a PIV file, returns the two one-dimensional arrays of the positions of the vectors of the chosen pass, in the coordinates of the image: for the first pass the vectors are exactly at the points of this grid, for the next passes they are at less than half their displacement from it. It holds for each couple of a series, with or without a crop, and a negative index counts the passes from the last one.", "quantifier": "every image shape, window size, overlap, crop, number of passes, index of pass and sequence of couples treated by the same work", "why_tests_cant": "the grid is recomputed from the saved shape of the image instead of being saved; tests use one image shape without a crop", "anchors": ["src/fluidimage/postproc/piv.py: get_grid_pixel", "src/fluidimage/postproc/piv.py: get_grid_pixel_from_piv_file", "src/fluidimage/data_objects/piv.py: HeavyPIVResults.get_grid_pixel", "src/fluidimage/data_objects/piv.py: MultipassPIVResults.get_grid_pixel", "src/fluidimage/works/piv/singlepass.py: BaseWorkPIV._prepare_with_image", "src/fluidimage/works/piv/singlepass.py: BaseWorkPIV.calcul", "src/fluidimage/works/with_mask.py: BaseWorkWithMask._xyoriginalimage_from_xymasked"]}
{"id": "C102", "title": "Reference of a BOS computation", "statement": "params.reference designates the reference image: an integer k the image number k of the series, an absolute path this file, a file name the file of the directory of the images; any other value raises a ValueError. A BOS field is computed exactly once for each image of the series except the reference.", "quantifier": "every series of images, value of params.reference and content of the directories", "why_tests_cant": "depends on the names of the files of the user (number of digits, subdirectories, current directory)", "anchors": ["src/fluidimage/works/bos.py: WorkBOS._init_path_reference", "src/fluidimage/topologies/bos.py: TopologyBOS._fix_indices_images", "src/fluidimage/topologies/base.py: TopologyBaseFromImages.fill_queue_paths"]}
{"id": "C103", "title": "The filters of a vector field return values that do not depend on the outside of the domain", "statement": "For every vector field, every window and every local filter: median_filter and gaussian_filter with valid=True return the field without the points for which the window goes out of the domain. The values returned are those of the filtered physical field whatever this field is outside of the measured domain, at the coordinates returned, and the three components are filtered. After k iterations the values at k half windows of the borders have this property.", "quantifier": "every field, every window, number of iterations, values and physical fields that continue the measured values", "why_tests_cant": "tests look at the shape of the returned field for one size and one iteration", "anchors": ["src/fluidimage/postproc/vector_field.py:VectorFieldOnGrid.median_filter", "src/fluidimage/postproc/vector_field.py:VectorFieldOnGrid.gaussian_filter", "src/fluidimage/postproc/vector_field.py:VectorFieldOnGrid.extract"]}
{"id": "C104", "title": "A vector field saved is read again unchanged", "statement": "For every vector field obtained by constructions, operators, extractions, regularizations and reads: the file written by save is read by from_file of the same class, which gives a field with the same coordinates, the same three components, the same names, units, name and history and the parameters given to save or those of the field; saving the field that was read gives the same file. Another class refuses the file.", "quantifier": "every field a program can hold, all parameters given to save", "why_tests_cant": "tests save and read one field made from a PIV file by hand", "anchors": ["src/fluidimage/postproc/vector_field.py:VectorFieldOnGrid.save", "src/fluidimage/postproc/vector_field.py:VectorFieldOnGrid.from_file", "src/fluidimage/postproc/vector_field.py:VectorFieldOnGrid.__init__"]}
{"id": "C105", "title": "The operations on vector fields give the right values and keep the metadata", "statement": "For all fields and numbers: an operator gives, on the grid of its operands, the operation on the values at each point, for the three components, and keeps the names and units; fields on different grids are refused. An extraction keeps the names, the units and the parameters and adds one line to the history.", "quantifier": "all fields, numbers, operations on values, sequences of extractions", "why_tests_cant": "tests compare one sum and one product of fields on the same grid", "anchors": ["src/fluidimage/postproc/vector_field.py:VectorFieldOnGrid.__add__", "src/fluidimage/postproc/vector_field.py:VectorFieldOnGrid.__sub__", "src/fluidimage/postproc/vector_field.py:VectorFieldOnGrid.__mul__", "src/fluidimage/postproc/vector_field.py:VectorFieldOnGrid.__truediv__", "src/fluidimage/postproc/vector_field.py:VectorFieldOnGrid.extract"]}
{"id": "C106", "title": "regularize_grid makes a grid regular or leaves the field unchanged", "statement": "For every field: is_grid_regular tells whether the grid of the field is regular. regularize_grid makes the grid regular, by removing nothing but the last line or the last column with their values, exactly when this is possible; otherwise it raises and the field is unchanged.", "quantifier": "all fields, coordinates, tolerances of the comparison of the steps", "why_tests_cant": "tests call the method on one regular field", "anchors": ["src/fluidimage/postproc/vector_field.py:VectorFieldOnGrid.regularize_grid", "src/fluidimage/postproc/vector_field.py:VectorFieldOnGrid._init_is_grid_regular", "src/fluidimage/postproc/vector_field.py:VectorFieldOnGrid.extract"]}
{"id": "C107", "title": "The display of a vector field draws each vector at its position", "statement": "For every vector field and all arguments step and skip: the arrows displayed are those of the points chosen (one in step along each axis, or those of the two slices), each at the coordinates of its point. Without argument the number of lines of arrows is at most 49 and at least 25 when the field has so many lines. Both arguments together are refused.", "quantifier": "all fields, steps and slices", "why_tests_cant": "tests display one field with default arguments and check nothing", "anchors": ["src/fluidimage/postproc/vector_field.py:VectorFieldOnGrid.display"]}
{"id": "C108", "title": "An array of vector fields is a list with one time for each field", "statement": "For every sequence of calls on an array: the items are those of a Python list, an operation on the array is the operation on each field, the array has one time per field, multiple of the time step given, kept by the parts and the operations; display(ind) shows the field of index ind.", "quantifier": "all sequences of append, extend, item assignments, deletions and set_timestep, all indices and operations", "why_tests_cant": "tests set the time step once and never display an array", "anchors": ["src/fluidimage/postproc/vector_field.py:ArrayOfVectorFieldsOnGrid.set_timestep", "src/fluidimage/postproc/vector_field.py:ArrayOfVectorFieldsOnGrid.append", "src/fluidimage/postproc/vector_field.py:ArrayOfVectorFieldsOnGrid.__getitem__", "src/fluidimage/postproc/vector_field.py:ArrayOfVectorFieldsOnGrid.display"]}
{"id": "C109", "title": "The servers of a computation start in the directory of the computation", "statement": "With the executor based on servers, every server starts, uses the directory of the results chosen for the computation, asks nothing, creates no other directory and leaves the parameters of the computation as they are, for every saving mode; and a computation always has a server.", "quantifier": "every file system, saving mode, answers of the user, saving path, type of server and moment when a server starts", "why_tests_cant": "Depends on the state of the file system when each process starts.", "anchors": ["src/fluidimage/executors/servers.py:launch_server", "src/fluidimage/executors/servers.py:WorkerServerMultiprocessing", "src/fluidimage/executors/exec_async_servers.py:ExecutorAsyncServers"]}
{"id": "C110", "title": "A server answers each job once, in the order of the jobs", "statement": "A server gives to each job one answer, on the connection of the job, with the name of the work, the key and what the function of the work gives (the value or the exception); the answers come in the order of the jobs; all the jobs are answered whatever the order in which the tasks of the server advance; a job which fails does not prevent the others from being answered; a server which is asked to stop stops.", "quantifier": "all interleavings of the tasks of the server and of the messages of the executor, all works, keys, objects and results", "why_tests_cant": "Interleavings and failures at any moment.", "anchors": ["src/fluidimage/executors/servers.py:WorkerServer", "src/fluidimage/executors/servers.py:WorkerServerMultiprocessing.receive", "src/fluidimage/executors/servers.py:WorkerServerMultiprocessing.launch_works", "src/fluidimage/executors/servers.py:WorkerServerMultiprocessing.send", "src/fluidimage/executors/servers.py:WorkerServerMultiprocessing.check_event_has_to_stop"]}
{"id": "C111", "title": "The deprecated post-processing classes place every vector at its point and give the curl, the divergence and the norm of the present velocities", "statement": "PIV_Postproc(path) puts each vector of the file at the place of its point in the arrays X, Y, U, V. compute_rot() and compute_div() return the curl and the divergence of the velocities the object has at that moment, with the border scheme asked by edge_order; displayf shows the norm of the vectors it is given. PIV_PostProc_serie(paths) does the same for every file of a list and set_time(dt) gives the file i the time i dt.", "quantifier": "every file of vectors in any order, every grid, steps and velocity field, every sequence of assignments and calls on an object, every list of files", "why_tests_cant": "The order of the points, the velocities and the history of calls of an object are unbounded; the constructor of the series has no successful run to test and the classes are said to be untested.", "anchors": ["src/fluidimage/postproc/postproc.py:compute_grid", "src/fluidimage/postproc/postproc.py:compute_derivatives", "src/fluidimage/postproc/postproc.py:PIV_Postproc", "src/fluidimage/postproc/postproc.py:PIV_PostProc_serie"]}
{"id": "C112", "title": "A topology can be computed again", "statement": "compute() can be called several times for one topology, with any executor at each call. Each call treats the series (or images) defined by the parameters: all of them, or with how = 'complete' exactly those which have no result at that moment, for example those which failed in the previous call or whose result was removed.", "quantifier": "every series and number of processes, every sequence of calls with any executors, of failures of any items and of removals of results", "why_tests_cant": "The property is about the state left in the topology by any history of calls; a test runs one or two calls, with few items, and usually one executor.", "anchors": ["src/fluidimage/executors/multi_exec_async.py:MultiExecutorAsync._start_multiprocess_series", "src/fluidimage/executors/multi_exec_async.py:MultiExecutorAsync._start_multiprocess_first_queue", "src/fluidimage/executors/multi_exec_subproc.py:MultiExecutorSubproc._init_num_expected_results", "src/fluidimage/executors/base.py:ExecutorBase._init_num_expected_results", "src/fluidimage/topologies/base.py:TopologyBaseFromSeries.init_series", "src/fluidimage/topologies/base.py:TopologyBase.compute"]}
{"id": "C113", "title": "The figures made from a log show what the workers did", "statement": "Given the log of an execution, the figure of the number of workers shows, for each work, at each time between its first beginning and its last known event, the number of its executions which are going on; the numbers are never negative and never above the number of executions which are really simultaneous; with the argument str_names it shows the works the names of which contain it. The figure of the durations shows each execution from its beginning to its end at the height of its duration, and the mean duration; the line of the memory goes forward in time.", "quantifier": "all logs (any number of works, executions, overlaps, equal times, executions the end of which is missing, main file and files of the processes), all values of str_names, all orders numpy may give to equal times, all times", "why_tests_cant": "The curve is a sum over sorted events which must agree with the interleaving of the executions at every instant; the tests only check that the figures are made.", "anchors": ["src/fluidimage/topologies/log.py: LogTopology.plot_nb_workers", "src/fluidimage/topologies/log.py: LogTopology.plot_durations", "src/fluidimage/topologies/log.py: LogTopology.plot_memory"]}
{"id": "C114", "title": "The display of a PIV result shows, for the arrow clicked on, the vector of this arrow", "statement": "When a PIV result is displayed, the arrows drawn are those of the result: on each vector its displacement, on each removed vector its removed displacement. After any history of clicks and keys, a click on an arrow shows the number, the position, the displacement (the removed one for a vector which has been removed), the correlation and the error of the vector of this arrow, and puts the point on it; the marks drawn on the correlation are at the indices of the displacements of this vector; alt+s switches the image and alt+left and alt+right change the selected vector; the display does not change the result. REFUTED in parts: a click on the vector 0 shows nothing as long as no other vector has been selected; alt+left and alt+right never change anything; without images the vertical displacements of the result are changed in place, so that a second display is upside down; the mark of the absence of displacement is at the right place exactly for a square correlation; with show_interp the displacement shown is the one of another vector, or there is an IndexError.", "quantifier": "every result whose arrays have the same size and whose removed vectors are in the dictionary of the wrong vectors, with or without images, errors and correlations, and every history of clicks on arrows and keys", "why_tests_cant": "The text depends on the history of the events and on the correspondence between three collections of arrows and the vectors; a test would have to click on every arrow after every history, in a graphical session.", "anchors": ["src/fluidimage/data_objects/display_piv.py: DisplayPIV", "src/fluidimage/data_objects/piv.py: HeavyPIVResults.display", "src/fluidimage/calcul/correl.py: compute_indices_from_displacement"]}
{"id": "C115", "title": "Each failure of a work leaves its report", "statement": "During an execution, each failure of a work on an item leaves, in the directory of the log, a report with the name of the work, the key of the item and the traceback; there is exactly one report per failure: the works which come after do not run on this item and leave no report, the last one tells that the item could not be treated. Without stop_if_error a failure does not stop the execution; with it the execution ends at the first failure with its exception, and its report is the only one. REFUTED in parts: two works can write in the same file (for example 'a' with the key 'b_k' and 'a b' with the key 'k'), the second report replaces the first one (exact condition; this cannot happen with the works of the topologies of fluidimage); if the work which fails or its key has a slash in its name, the report cannot be written and the execution ends with a FileNotFoundError.", "quantifier": "every chain of works, every set of items, every function of the works (which items fail, where, with which traceback), every order in which the executor treats the items, with or without stop_if_error", "why_tests_cant": "The reports depend on all the failures of an execution, on their order and on the names of the works and keys; a test makes one work fail on one item.", "anchors": ["src/fluidimage/executors/base.py: ExecutorBase.log_exception", "src/fluidimage/topologies/base.py: Work.check_exception", "src/fluidimage/topologies/base.py: Work.__init__", "src/fluidimage/executors/exec_sequential.py: ExecutorSequential._run_works", "src/fluidimage/executors/exec_async.py: ExecutorAsync.async_run_work_io"]}
{"id": "C116", "title": "The tools of brightness and contrast do to each pixel what they document", "statement": "rescale_intensity_tanh gives floor(max(img) * tanh(img/threshold)) with threshold = 2*rms by default, keeps the order of the pixels and sets the maximum by the threshold; rescale_intensity brings the image to the given range by a multiplicative factor; equalize_hist_adapt and equalize_hist_local keep the range of brightness of the image; adaptive_threshold gives a binary image; sharpen gives blurred + alpha*(blurred - filter_blurred).", "quantifier": "for every image (any size, dtype and pixel values), threshold, range, factor, and every equalisation, local mean and Gaussian filter", "why_tests_cant": "the wrapping of integers, uniform images and images of zeros are rare in the images of the tests, which only check that the tools run", "anchors": ["src/fluidimage/works/preproc/_toolbox_py.py: rescale_intensity, rescale_intensity_tanh, equalize_hist_adapt, equalize_hist_local, adaptive_threshold, sharpen"]}
{"id": "C117", "title": "The graph of a topology shows its queues, its works and how they are linked", "statement": "The dot file written by make_code_graphviz has the given name (with .dot), one node per queue and per work with its name, and exactly one link per input queue and per output queue of each work, with the attributes of its kind; a work refused by add_work because its name is already used is not in the topology.", "quantifier": "for every topology (any number of queues and works, names, kinds, single queues or tuples) and every sequence of calls of add_queue and add_work", "why_tests_cant": "tests write the graph of a few topologies and do not read it", "anchors": ["src/fluidimage/topologies/base.py: TopologyBase.add_queue, add_work, make_code_graphviz"]}
{"id": "C118", "title": "The objects which compute correlations honour displacement_max, and the value at the indices of a displacement is the correlation for this displacement", "statement": "For every method of correlation, every pair of shapes of windows and every displacement_max (None, a number, a percentage): an object is created and only the displacements not larger than displacement_max are searched (a percentage being the one of the largest side); with scipy, for all images and all windows, the value at the indices which the object gives for a displacement is the sum over the second window of the products with the pixels of the first image moved by this displacement; and multiplying one image by a constant leaves the normalised correlation unchanged. REFUTED: with a displacement_max the pythran and pycuda classes can not be created (UnboundLocalError), the scipy classes ignore it; with scipy.signal the correlation is shifted by one pixel when the sides of the windows have different parities; with scipy.ndimage the normalised correlation scales with the light of the first image.", "quantifier": "all methods, shapes, displacement_max, images, centres and displacements", "why_tests_cant": "unit tests use a few shapes (mostly even and equal) and one displacement; the shift depends on the parities of both windows and the equality must hold for all images and displacements", "anchors": ["src/fluidimage/calcul/correl.py:parse_displacement_max", "src/fluidimage/calcul/correl.py:CorrelBase.__init__", "src/fluidimage/calcul/correl.py:CorrelPythran", "src/fluidimage/calcul/correl.py:CorrelPyCuda", "src/fluidimage/calcul/correl.py:CorrelScipySignal", "src/fluidimage/calcul/correl.py:CorrelScipyNdimage", "src/fluidimage/calcul/correl.py:CorrelFFTBase", "src/fluidimage/calcul/correl.py:_norm_images", "src/fluidimage/works/piv/singlepass.py:_crop_im0"]}
{"id": "C119", "title": "A PIV result saved for UVmat contains every pass, and a reader finds the vectors, the smoothed field and the splines", "statement": "For every list of passes: saving in the format of UVmat succeeds and, for each pass, the file has the positions, the correlations, the displacements (0 instead of nan) and flags which say exactly which vectors are nan, so that a reader recovers the two components; and when the thin plate splines are used the smoothed field and the splines of the pass are in the file. REFUTED: the smoothed field and the splines are silently left out as soon as one vector is nan (or two subdomains have different numbers of coefficients); the second component is recovered exactly when both components are nan together.", "quantifier": "all lists of passes, all numbers of vectors, all values including nan, all subdomains", "why_tests_cant": "unit tests save one result without looking at what a reader finds; the loss depends on the data (one nan among thousands of vectors) and is hidden by a bare except", "anchors": ["src/fluidimage/data_objects/piv.py:MultipassPIVResults._save_as_uvmat", "src/fluidimage/data_objects/piv.py:MultipassPIVResults.save", "src/fluidimage/works/piv/singlepass.py:apply_interp"]}
{"id": "C120", "title": "An executor is found by its name when it is installed", "statement": "For every history of a session (packages installed, questions, computations): compute(executor=name) uses the class of the installed executor of this name, and raises NotImplementedError if there is none. REFUTED: what is known is fixed at the first question (unless get_entry_points(reload=True) is called), even if nothing was found at this time; and a name provided by two packages raises NameError instead of a warning.", "quantifier": "all histories of installations, questions (with or without reload), imports and computations, all entry points", "why_tests_cant": "unit tests run with one set of installed packages and can not install packages during a session", "anchors": ["src/fluidimage/executors/__init__.py:get_entry_points", "src/fluidimage/executors/__init__.py:get_executor_names", "src/fluidimage/executors/__init__.py:_get_module_fullname_from_name", "src/fluidimage/executors/__init__.py:import_executor_class", "src/fluidimage/topologies/base.py:TopologyBase.compute"]}
{"id": "C121", "title": "A work used without a topology processes the serie given by its parameters", "statement": "For every history of changes of the parameters, changes of the files and calls of a work (get_serie, process_1_serie, display): a call gives the serie of the asked index (by default the first one) for the present parameters; the display of the preprocessing shows the first images of two consecutive series before and after. REFUTED for the parameters: the series are those of the first call which could create them.", "quantifier": "all histories of changes and calls, all indices, all functions which create the series", "why_tests_cant": "unit tests call each work once; the result depends on the whole history of the object", "anchors": ["src/fluidimage/works/__init__.py:BaseWorkFromSerie.get_serie", "src/fluidimage/works/__init__.py:BaseWorkFromSerie.process_1_serie", "src/fluidimage/works/__init__.py:BaseWorkFromImage.get_tuple_image_name", "src/fluidimage/works/preproc/__init__.py:WorkPreproc.display"]}
{"id": "C122", "title": "Surface tracking finds the wavenumber of the pattern and filters around it", "statement": "For every reference frame in which one number of periods along the lines is stronger than any other one, this number of periods is the wave vector used to rectify the frames, whatever the phase and the contrast of the pattern and the size of the frame; the gain moves it to the frequency zero without changing the amplitudes; the filter is between 0 and e and removes exactly the plane waves of plus and minus this number of periods. A reference frame without pattern is not silently accepted.", "quantifier": "all frames, frame sizes (even and odd), oversampling factors, numbers of periods, phases, contrasts and filter widths", "why_tests_cant": "a test uses one reference image, whose size is even; the statement is about all sizes and all patterns", "anchors": ["src/fluidimage/works/surface_tracking.py:WorkSurfaceTracking.wave_vector", "src/fluidimage/works/surface_tracking.py:WorkSurfaceTracking.set_gain_filter", "src/fluidimage/works/surface_tracking.py:WorkSurfaceTracking.rectify_frame"]}
{"id": "C123", "title": "Temporal spectra of an array of fields", "statement": "For an array of vector fields with a time step, compute_temporal_fft returns for each point of the grid and each component the Fourier coefficients in time of the values of this point at the pulsations returned, in growing order and centred on zero, and spectral densities whose integral is half the mean square of these values; it fails exactly when times are missing, when there are less than two times, no field, or arrays which do not fit the shape of the first field; this remains true after further fields are appended.", "quantifier": "all arrays of fields (any number of fields, any shape, any values), all time steps, all histories set_timestep then append", "why_tests_cant": "the identity is over all real values, numbers of fields and shapes, including the histories where times and fields no longer have the same length", "anchors": ["src/fluidimage/postproc/vector_field.py: ArrayOfVectorFieldsOnGrid.set_timestep, append, compute_temporal_fft", "src/fluidimage/postproc/util.py: compute_1dspectrum"]}
{"id": "C124", "title": "Mouse wheel on the display of an array of fields", "statement": "On the figure of an array of vector fields, each move of the mouse wheel goes to the next or to the previous field, cyclically, and draws the colours and the arrows of this field and prints its time, whatever the sequence of moves, the shape of the fields and whether or not times have been set.", "quantifier": "all arrays of fields of one shape, all starting indices, all sequences of moves of the wheel", "why_tests_cant": "histories of events of any length, shapes of any size, and the partial updates left by an exception raised in a callback", "anchors": ["src/fluidimage/postproc/vector_field.py: ArrayOfVectorFieldsOnGrid.display, onscroll; VectorFieldOnGrid.display"]}
{"id": "C125", "title": "Synthetic images", "statement": "The two images made by make_synthetic_images are two views of one pattern of Gaussian particles, the second one displaced by the given displacement: a pixel of the second image has the value of the pixel of the first one from which it has been displaced (plus the noise if asked), the particles are drawn in the rectangle of the first image enlarged by the displacement on all sides, a smaller second image is centred in the first one with margins equal within one pixel, and the call is refused exactly for empty images and second images larger than the first one.", "quantifier": "all random draws, displacements (any sign, fractional), numbers of particles, shapes, noise levels and particle sizes", "why_tests_cant": "identity over all displacements, shapes and random draws; the tests look at one displacement and never at the pixels", "anchors": ["src/fluidimage/synthetic.py: make_synthetic_images"]}
{"id": "C126", "title": "Tsai calibration with arrays and displacements", "statement": "phys2pix with arrays of points returns the pixel of each point, leaves the arrays of the caller unchanged and gives the same answer when it is called again, with or without an interface; pix2phys_UV returns the displacement in the slice from the point seen half a displacement before the position to the one seen half a displacement after, zero for no displacement and opposite for the opposite displacement.", "quantifier": "all calibrations, arrays of any length and content (also one array used for two coordinates), positions and displacements", "why_tests_cant": "identities over all cameras, points and displacements, and an effect on the arguments that no test looks at", "anchors": ["src/fluidimage/calibration/calib_tsai.py: Calibration.pix2phys_UV, phys2pix"]}
{"id": "C127", "title": "A run asked to stop with the signal 12 ends cleanly", "statement": "When an executor receives the signal 12, the computation is stopped: the run ends, the functions which are being executed are executed to their end, every item is either saved with the result it would have had without the signal or has not been treated, no item is begun after the signal, what has been computed is saved, and an executor with several processes transmits the request to all its processes which are still running. (Ends, nothing mixed up and running functions finished: hold for every chain. False: works go on beginning new items as long as they find some, even all of them; a result computed when the signal arrives can be left in a queue without being saved because the next work has already returned; with several processes, as soon as one process has ended and been waited for, the handler raises ProcessLookupError, the following processes are not told and compute() is left.)", "quantifier": "every chain of works, every set of inputs, limits of workers and queues, every schedule and every instants of the signals; every number of processes and every history of ends of processes and turns of the loop of the parent", "why_tests_cant": "the effect depends on the instant of the signal relative to all the threads and loops, tests can only send it at a few instants", "anchors": ["src/fluidimage/executors/base.py: ExecutorBase.__init__.handler_signals", "src/fluidimage/executors/base.py: MultiExecutorBase.compute.handler_signals", "src/fluidimage/executors/exec_async.py: ExecutorAsync.define_functions", "src/fluidimage/executors/exec_async.py: ExecutorAsync.update_has_to_stop"]}
{"id": "C128", "title": "Computation started from a file of instructions", "statement": "python -m fluidimage.run_from_xml FILE [--mode M] launches the UVmat action of the file when the file has an action (only civ_series exists, another one is refused), otherwise the class named by a parameter file of fluidimage, and refuses the other files. For UVmat every PIV parameter (paths, series, window sizes made even, number of passes, splines, thresholds of the false vectors) is the one of the instructions, or the default one when the element is absent; a second pass with windows halved is done exactly with the element Civ2. Exactly the files with the elements needed are accepted. The mode asked for is the one used; successive runs with new_dir never share a directory; without mode, or with recompute or complete, the directory is the one of the instructions and nothing else changes on the disk; an unknown mode is refused.", "quantifier": "every file, mode, image directory, content of the disk and sequence of runs", "why_tests_cant": "The combinations of optional elements, modes and previous runs are unbounded; the tests launch two fixed instruction files once.", "anchors": ["src/fluidimage/run_from_xml.py: main, modif_params_with_args", "src/fluidimage/uvmat.py: ActionBase, ActionPIVFromUvmatXML.params_from_uvmat_xml", "src/fluidimage/topologies/base.py: prepare_path_dir_result", "src/fluidimage/works/piv/multipass.py: WorkPIV.__init__"]}
{"id": "C129", "title": "multi_exec_subproc returns whatever the processes print", "statement": "With multi_exec_subproc, compute() returns once every process has treated its items, whatever the processes write on their standard streams and in whatever order they progress; what the works print on stdout never stops a process of a topology which lists its results.", "quantifier": "every list of programs (sequences of writes of any size on stdout and stderr), pipe capacity and interleaving", "why_tests_cant": "A process blocks only when a pipe which nobody reads is full, after an amount of output no test produces; the schedules of the processes are unbounded.", "anchors": ["src/fluidimage/executors/multi_exec_subproc.py: MultiExecutorSubproc._start_processes", "src/fluidimage/executors/base.py: ExecutorBase.__init__, MultiExecutorBase.compute", "src/fluidimage/executors/exec_async_seq_for_multi.py: ExecutorAsyncSeqForMulti.__init__"]}
{"id": "C130", "title": "Ctrl+C stops a computation", "statement": "When Ctrl+C is received during a computation, no function of a work is called any more, the functions being executed in threads are executed to their end, once, and the call of compute ends with KeyboardInterrupt: whatever the instant, whatever the computations done before in the same session, sequential or asynchronous. A computation can then be started again in the same directory.", "quantifier": "all topologies, all executions of exec_async, all instants of the interruption, all executions after it; all histories of sequential and asynchronous computations in a session", "why_tests_cant": "the instant of the signal with respect to the tasks and threads, and what the previous computations of the session have left (handler, lock), cannot be enumerated by tests", "anchors": ["src/fluidimage/executors/exec_async.py: ExecutorAsync.__init__ (signal_handler), compute, start_async_works, async_run_work_io, async_run_work_cpu", "src/fluidimage/executors/exec_sequential.py: ExecutorSequential._run_works", "src/fluidimage/executors/base.py: ExecutorBase._save_lock_file, _release_lock, exec_one_shot_works, _finalize_compute"]}
{"id": "C131", "title": "The circles of a calibration target are found and given row by row", "statement": "detect_grid(image, origin, nx, ny, ds) returns the positions of the nx by ny circles of the target centred on the origin, row by row, whatever the order in which the blobs are detected, for small errors on the positions, wherever the origin is, and also if the target has more circles than nx by ny.", "quantifier": "all positions of blobs (rationals), all origins, spacings and sizes, all orders of detection", "why_tests_cant": "the positions and the origin are real numbers; the failures only appear for particular ratios of the origin to the spacing or for larger targets", "anchors": ["src/fluidimage/calibration/calib_cv.py: SimpleCircleGrid.detect_all, SimpleCircleGrid.detect_grid"]}
{"id": "C132", "title": "A calibration with OpenCV which has been computed is saved", "statement": "After calibrate, a new CalibCV object created with the same path has the calibration which has just been computed, for all the sequences of calibrations and for the default path.", "quantifier": "all sequences of calibrations (debug or not) with objects of any paths, all initial contents of the files", "why_tests_cant": "depends on the history of the files", "anchors": ["src/fluidimage/calibration/calib_cv.py: CalibCV.__init__, CalibCV.save, CalibCV.calibrate"]}
{"id": "C133", "title": "Tomography: a camera gives to a voxel the intensity of its image at the pixel of the voxel", "statement": "With the nearest neighbour interpolation, a voxel projected in a pixel of the image gets the intensity of this pixel, zero if the pixel is dark or below the threshold, so that a voxel which one camera sees dark is dark after the reconstruction. The result does not depend on the number of CPUs and on the memory available, and exists for every number of voxels.", "quantifier": "all images, thresholds, positions, numbers of cameras, of voxels and of CPUs", "why_tests_cant": "The tests reconstruct one volume and do not look at the intensities; all images and sizes.", "anchors": ["src/fluidimage/reconstruct/tomo/mlos.py:TomoMLOSNeighbour.get_interpolator", "src/fluidimage/reconstruct/tomo/mlos.py:TomoMLOSBase.reconstruct", "src/fluidimage/reconstruct/tomo/mlos.py:TomoMLOSCV.reconstruct"]}
{"id": "C134", "title": "Tomography: the file of a volume has the product of its cameras", "statement": "For every sequence of calls init_paths(image) and reconstruct(pix, image, save=True), for images of any cameras and times in any order, the file of each volume has for each voxel the product of the roots of the intensities given for this volume, and no other file changes; reconstruct saves in the file of the image it is given; the intensities can be used in memory after each call; clear puts them to one; a program stopped at any point can be run again without losing the previous cameras.", "quantifier": "all sequences of calls, images, intensities, all points where the program is stopped", "why_tests_cant": "Histories and crash points of any length; the tests make one volume without stop.", "anchors": ["src/fluidimage/reconstruct/tomo/mlos.py:TomoMLOSBase.reconstruct", "src/fluidimage/data_objects/tomo.py:ArrayTomoBase.init_paths", "src/fluidimage/data_objects/tomo.py:ArrayTomoBase.save", "src/fluidimage/data_objects/tomo.py:ArrayTomoBase.load_dataset", "src/fluidimage/data_objects/tomo.py:ArrayTomoBase.clear"]}
{"id": "C135", "title": "Tomography: each camera is projected with its own calibration", "statement": "An object created with the files of calibration of several cameras lists them in the order given, and each camera is projected with the calibration of its own file, whatever the names of the files; the volume is not affected by the names of the cameras.", "quantifier": "all lists of files and calibrations", "why_tests_cant": "All names; the tests use cam0 to cam3.", "anchors": ["src/fluidimage/reconstruct/tomo/mlos.py:TomoMLOSBase.__init__"]}
{"id": "C136", "title": "Points of the figures which check a direct calibration", "statement": "The figures made by check_interp_levels and check_interp_lines_coeffs show, and check_interp_lines draws one line for, a regular grid of pixels of the image: all the multiples of a step from the first pixel in each direction, with the value of the interpolation at each of these pixels. There are at least as many pixels in each direction as the number asked for, and less than twice as many. The figures can be made for every image.", "quantifier": "every size of the image, every number of points, every number of levels, every interpolation", "why_tests_cant": "Tests use one image, which is large compared with the number of points, and do not look at the figures; the count and the failure depend on the division of two integers.", "anchors": ["src/fluidimage/calibration/calib_direct.py: CalibDirect.check_interp_levels, CalibDirect.check_interp_lines, CalibDirect.check_interp_lines_coeffs"]}
{"id": "C137", "title": "The file in which a result of PIV is saved", "statement": "A result of PIV (of one pass, of several passes, or light) can be saved, also when it has been read in a file: in the file which is given (several passes) or in a file of the directory which is given, whose name is made from the names of the images, or is the name of the file which has been read, with \"_light\" for a light result. Different results saved in one directory are in different files, and the light result does not replace the file from which it is made.", "quantifier": "every name of image, every path of the file read, every directory or file given, every kind, every number of passes and index of pass", "why_tests_cant": "Tests save one result of each class with one name; collisions of names, the extension of the path and the results which have been read depend on all the names and on the history of the object.", "anchors": ["src/fluidimage/data_objects/piv.py: HeavyPIVResults.save, HeavyPIVResults._get_name, MultipassPIVResults.save, MultipassPIVResults._get_name, MultipassPIVResults.make_light_result, LightPIVResults.save, LightPIVResults._get_name, ArrayCouple._load, ArrayCouple._compute_name_from_names"]}
