{"id": "C01", "title": "Pixel packet decoding is the exact inverse of the Timepix3 bit packing", "statement": "For every 8-byte pixel packet, the hit that is constructed from it (with or without GDC) reports exactly the ToT, ToA, fine-ToA and chip-local pixel that were packed into the packet's 60 payload bits; conversely every packet is the packing of the fields that are reported, so no bit of the payload is ignored, shared between two fields, or read twice. The 30-bit raw arrival time is 16384*SPIDR + ToA.", "quantifier": "for all 8-byte packets and for all field values within their bit widths, all timestamps, all chip ids", "why_tests_cant": "2^60 payloads; the unit test decodes a single packet, so an off-by-one shift in an unsampled bit survives.", "anchors": ["sophiread/FastSophiread/src/hit.cpp:Hit::Hit", "sophiread/FastSophiread/include/hit.h:Hit"]}
{"id": "C02", "title": "Detector geometry: chips tile the sensor without overlap and never touch the gap", "statement": "For every packet and chip 0..3 the hit coordinates lie in that chip's 256x256 quadrant of the 516x516 sensor (four quadrants separated by a 4-pixel cross that is never hit), and (chip, local pixel) -> (x,y) is injective; chips 1 and 2 are rotated by 180 degrees. Every chip id other than 0,1,2 (negative ones included) is silently mapped onto the quadrant of chip 3, so injectivity fails over arbitrary chip ids.", "quantifier": "for all packets and all int chip ids", "why_tests_cant": "needs all 2^16 pixel addresses for all chip ids and a statement about pairs of packets.", "anchors": ["sophiread/FastSophiread/src/hit.cpp:Hit::Hit"]}
{"id": "C03", "title": "GDC-mode arrival time is the unique extension of the 30-bit chip time next to the GDC", "statement": "For a GDC timestamp g < 2^48, the hit's arrival time is the unique T congruent to the packet's 30-bit time modulo 2^30 with g + 4e7 - 2^30 <= T < g + 4e7 provided that T is not negative and that g is not in the last 2^30 ticks below 2^48 with the packet's 30-bit time below g mod 2^30. A negative T is reported as T + 2^64 (which happens for every hit whose 30-bit time leads a GDC below 2^30 by 1 s or more); in the excluded rollover case the reported time is 2^64 - 2^30 plus the 30-bit time.", "quantifier": "for all packets, all GDC values below 2^48", "why_tests_cant": "the branch depends on a 30-bit/48-bit carry and on a threshold hit about once a second; tests sample a handful of values.", "anchors": ["sophiread/FastSophiread/src/hit.cpp:Hit::Hit"]}
{"id": "C04", "title": "GDC-mode time of flight always terminates inside one accelerator frame", "statement": "For every hit constructed with GDC the repeated-subtraction loop terminates, the time of flight is at most 666800 ticks (16.67 ms), it is congruent to the 32-bit difference arrival - TDC modulo 666667, differences up to 666800 ticks are reported unchanged, and larger ones are reported in [134, 666800].", "quantifier": "for all packets, all 64-bit TDC and GDC timestamps, all chip ids", "why_tests_cant": "termination and a floating point comparison over 2^32 values of the difference; no finite sample establishes the threshold.", "anchors": ["sophiread/FastSophiread/src/hit.cpp:Hit::Hit"]}
{"id": "C05", "title": "GDC-mode time of flight is the phase inside the 60 Hz frame only for hits not earlier than the TDC", "statement": "If the arrival time is not before the TDC pulse and less than 2^32 ticks after it, the time of flight is congruent to the true difference modulo the frame length 666667; if the hit is earlier than the TDC pulse, the 32-bit wrap-around adds 298482 ticks (7.46 ms) to the phase, so the reported value is wrong.", "quantifier": "for all arrival times and TDC timestamps", "why_tests_cant": "the two regimes differ by the sign of a difference of 48-bit counters; tests never construct hits that precede their TDC.", "anchors": ["sophiread/FastSophiread/src/hit.cpp:Hit::Hit"]}
{"id": "C06", "title": "TDC-mode time of flight is defined exactly when the (once extended) chip time reaches the TDC", "statement": "In TDC-only mode let s be the 30-bit chip time and s' = s, or s + 2^30 when the TDC timestamp exceeds s by more than 2^22 ticks. The stored arrival time is s'. If s' >= TDC the time of flight is (s' - TDC) mod 2^32; otherwise the field is left uninitialised. In particular it is uninitialised for every packet as soon as the TDC timestamp is 2^31 ticks (53.7 s) or more, and for every hit at most 2^22 ticks earlier than its TDC pulse.", "quantifier": "for all packets and all 64-bit TDC timestamps", "why_tests_cant": "an uninitialised read has no observable value a test could assert; it appears only after 53.7 s of acquisition or for early hits.", "anchors": ["sophiread/FastSophiread/src/hit.cpp:Hit::Hit"]}
{"id": "C07", "title": "TDC pulses are extended to the first time at or after the GDC", "statement": "With a GDC timestamp g (any 64-bit value, reduced modulo 2^48) a TDC packet carrying the 32-bit counter c sets the TDC timestamp to the least t >= g with t congruent to c modulo 2^32, taken modulo 2^48.", "quantifier": "for all TDC packets, all GDC timestamps and all previous TDC timestamps", "why_tests_cant": "carry propagation between a 32-bit counter and a 48-bit reference; exhaustive in 2^80 combinations.", "anchors": ["sophiread/FastSophiread/src/tpx3_fast.cpp:update_tdc_timestamp"]}
{"id": "C08", "title": "TDC-only rollover tracking reconstructs the true pulse times", "statement": "For any sequence of pulses whose true times start below 2^32, never decrease and advance by less than 2^31 ticks (53.7 s) per pulse, feeding the 32-bit counters one after another to the TDC-only update reproduces every true time below 2^48. A pulse that is out of order across a rollover is recorded one full counter period (107 s) too late, and the 48-bit field is not re-masked on overflow.", "quantifier": "for all pulse sequences of any length (induction), all initial counters", "why_tests_cant": "rollover happens every 107 s of beam time and the state persists; tests contain at most one rollover.", "anchors": ["sophiread/FastSophiread/src/tpx3_fast.cpp:update_tdc_timestamp"]}
{"id": "C09", "title": "Global timestamps are assembled only from complete LSB/MSB packet pairs and never become zero", "statement": "After any sequence of GDC packets the global timestamp is the 16-bit MSB of the last effective MSB packet combined with the 32-bit LSB that was current at that moment; LSB packets change nothing but the stored LSB; an MSB packet that would yield zero is ignored; other subtypes are ignored; the value is always below 2^48, and once non-zero it stays non-zero.", "quantifier": "for all packet sequences (induction over histories) and all starting states in range", "why_tests_cant": "a statement about arbitrary packet histories, including the zero GDC that the readout occasionally emits.", "anchors": ["sophiread/FastSophiread/src/tpx3_fast.cpp:update_gdc_timestamp_and_timer_lsb32"]}
{"id": "C10", "title": "Batch discovery returns exactly the 8-byte aligned headers, in order", "statement": "For every byte buffer the batch list contains one entry for each multiple of 8 at which 8 bytes remain and the bytes spell TPX, and no other entry; entries are in increasing offset order without duplicates and carry offset, payload size / 8 and chip id of that header. Trailing bytes beyond the last multiple of 8 are ignored.", "quantifier": "for all byte buffers of any length", "why_tests_cant": "quantifies over all buffers; tests use three files.", "anchors": ["sophiread/FastSophiread/src/tpx3_fast.cpp:findTPX3H"]}
{"id": "C11", "title": "Batch metadata ranges", "statement": "Every discovered batch has a packet count in 0..8191 (the 16-bit size field rounded down to whole packets), a chip id in -128..127 (the chip byte is sign-extended, so byte values 128..255 give negative chips), and starts with zero timestamps and no hits.", "quantifier": "for all byte buffers", "why_tests_cant": "sign extension only shows for chip bytes >= 128, which no test file has.", "anchors": ["sophiread/FastSophiread/src/tpx3_fast.cpp:findTPX3H", "sophiread/FastSophiread/include/tpx3_fast.h:TPX3"]}
{"id": "C12", "title": "Framing round trip for well-formed streams", "statement": "If a stream is the concatenation of chip datasets (header + whole packets, at most 8191 packets each) none of whose packets begins with the bytes TPX, then batch discovery followed by packet iteration returns exactly the original datasets: same number, same chip ids, same packets in the same order. Without that side condition a pixel packet whose low three bytes spell TPX is additionally reported as a batch and its successors are decoded twice.", "quantifier": "for all lists of chip datasets", "why_tests_cant": "for all streams; the counter-example needs a particular 24-bit SPIDR/ToT value.", "anchors": ["sophiread/FastSophiread/src/tpx3_fast.cpp:findTPX3H", "sophiread/FastSophiread/src/tpx3_fast.cpp:process_tpx3_packets"]}
{"id": "C13", "title": "Bounded batch discovery returns a prefix and tells how far it got", "statement": "With a batch limit n >= 1, bounded discovery returns the first min(n, total) entries of the unbounded result; the consumed count is the offset of the n-th header if there are at least n headers, and otherwise the buffer length rounded down to a multiple of 8. The limit is the environment value, or 100000 when it is unset or converts to 0.", "quantifier": "for all buffers and all limits", "why_tests_cant": "limit 100000 needs files with that many batches; boundary (exactly n headers) is easy to get wrong.", "anchors": ["sophiread/FastSophiread/src/tpx3_fast.cpp:findTPX3H", "sophiread/FastSophiread/src/tpx3_fast.cpp:_get_max_batch_len"]}
{"id": "C14", "title": "Resumed discovery reproduces whole-file processing", "statement": "Repeatedly calling bounded discovery on the remaining bytes with a limit of at least 2, and processing only the consumed part of each window, makes progress on every call that does not already cover a header-free remainder, terminates on 8-byte aligned buffers, and yields exactly the hits of whole-file processing whenever every declared payload ends before the next header; with limit 1 and any header in the file, or with 1..7 trailing bytes, the loop makes no progress and never ends.", "quantifier": "for all buffers meeting the stated framing condition, all limits, all starting timestamps", "why_tests_cant": "liveness and equivalence over all split points.", "anchors": ["sophiread/FastSophiread/src/tpx3_fast.cpp:findTPX3H", "sophiread/FastSophiread/tests/test_tpx3.cpp:TestExtractHits_large", "sophiread/FastSophiread/benchmarks/benchmark_mmap.cpp:main"]}
{"id": "C15", "title": "Packet iteration never reads outside a buffer whose length is a multiple of 8", "statement": "Processing any discovered batch of a buffer reads only bytes inside the buffer, for any declared packet count, provided the buffer length is a multiple of 8; for other lengths the iteration reads past the end exactly when the declared payload covers the trailing partial packet.", "quantifier": "for all buffers, all batches discovered in them", "why_tests_cant": "out-of-bounds reads usually return plausible bytes, so tests pass.", "anchors": ["sophiread/FastSophiread/src/tpx3_fast.cpp:process_tpx3_packets"]}
{"id": "C16", "title": "Two-phase processing equals one sequential pass", "statement": "Locating timestamps for all batches first and extracting hits per batch afterwards gives, for each batch, exactly the hits that a single sequential pass over all batches with running timestamps would give, in both GDC and TDC mode.", "quantifier": "for all buffers, all batch lists, all starting timestamps", "why_tests_cant": "equivalence of two programs over all inputs.", "anchors": ["sophiread/FastSophiread/src/tpx3_fast.cpp:updateTimestamp", "sophiread/FastSophiread/src/tpx3_fast.cpp:extractHits", "sophiread/SophireadCLI/src/sophiread_core.cpp:timedProcessing"]}
{"id": "C17", "title": "Parallel extraction is schedule independent", "statement": "Whatever partition of the batches into ranges and whatever interleaving of the ranges the task scheduler chooses, the hits and neutron events stored in each batch are the same as in sequential processing. No schedule ends with an exception, and a schedule with undefined behaviour has it for a reason that one of the batches has when it is processed alone.", "quantifier": "for all schedules (permutations and partitions of the batch tasks), all inputs", "why_tests_cant": "races and order effects are only sampled by tests.", "anchors": ["sophiread/SophireadCLI/src/sophiread_core.cpp:timedProcessing"]}
{"id": "C18", "title": "Hits are gated by timestamps and bounded by the packet count", "statement": "A batch yields at most as many hits as its packet count; in GDC mode a pixel packet yields a hit if and only if both a non-zero TDC and a non-zero GDC are current when it is reached, in TDC mode if and only if a non-zero TDC is current; hits appear in packet order, one per such packet.", "quantifier": "for all buffers, batches and starting timestamps", "why_tests_cant": "history-dependent filter over arbitrary packet sequences.", "anchors": ["sophiread/FastSophiread/src/tpx3_fast.cpp:process_tpx3_packets"]}
{"id": "C19", "title": "Extracting a batch twice appends; the second pass starts from the final timestamps", "statement": "Calling hit extraction a second time on the same batch keeps the hits of the first call and appends the hits obtained by reprocessing the same packets starting with the timestamps at which the first call ended; the call is therefore not idempotent.", "quantifier": "for all buffers and batches", "why_tests_cant": "requires comparing two runs from evolved state.", "anchors": ["sophiread/FastSophiread/src/tpx3_fast.cpp:extractHits"]}
{"id": "C20", "title": "Extraction is local to the batch's own payload", "statement": "Hits and timestamp effects of a batch depend only on the bytes of its own payload, its chip id and its starting timestamps: changing any other byte of the buffer changes nothing.", "quantifier": "for all pairs of buffers agreeing on the payload", "why_tests_cant": "two-run (hyper) property over all buffers.", "anchors": ["sophiread/FastSophiread/src/tpx3_fast.cpp:process_tpx3_packets"]}
{"id": "C21", "title": "ABS clustering partitions the hits", "statement": "For every hit list every hit receives exactly one cluster label, the per-cluster index lists are increasing, disjoint, and together contain every hit index exactly once, every label is below the recorded number of labels, and each label in use has at least one hit. Labels are numbered 0, 1, 2, ... in the order of the first hits of the clusters.", "quantifier": "for all hit lists, radii and time ranges", "why_tests_cant": "induction over arbitrary hit streams.", "anchors": ["sophiread/FastSophiread/src/abs.cpp:ABS::fit"]}
{"id": "C22", "title": "ABS cluster membership is sound", "statement": "A hit joins an existing cluster only if its arrival time differs from the arrival time of that cluster's first hit by at most the time range and its pixel lies within the radius of the bounding box of the hits collected so far; consequently any two hits of one cluster arrived within twice the time range, and the hits of a cluster of k hits lie within k - 1 radii of each other in x and in y. The hit joins the first eligible slot.", "quantifier": "for all hit lists, radii and time ranges", "why_tests_cant": "invariant over all histories.", "anchors": ["sophiread/FastSophiread/src/abs.cpp:ABS::fit"]}
{"id": "C23", "title": "ABS keeps at most eight open clusters and closes the oldest", "statement": "At every moment at most eight clusters are open; a hit that fits none opens a new cluster in the first unused slot, or, if all eight are in use, replaces the open cluster whose first hit has the smallest arrival time (lowest slot on ties); a closed cluster never receives another hit.", "quantifier": "for all hit lists", "why_tests_cant": "invariant over all histories.", "anchors": ["sophiread/FastSophiread/src/abs.cpp:ABS::fit"]}
{"id": "C24", "title": "Events correspond one-to-one to sufficiently large clusters", "statement": "Event extraction rejects hit lists whose length differs from the clustered one and unknown fitting methods; otherwise it returns, in label order, one event per cluster having at least the minimum number of hits and a fit with non-negative coordinates, whose hit count equals the cluster size; so the hit counts of all events sum to at most the number of hits, with equality when minimum size is 1 and every fit is valid.", "quantifier": "for all hit lists, all parameters", "why_tests_cant": "counting identity over all inputs.", "anchors": ["sophiread/FastSophiread/src/abs.cpp:ABS::get_events"]}
{"id": "C25", "title": "ABS results do not depend on earlier use of the object", "statement": "Fitting a hit list gives the same labels and events on a fresh object and on one that has already been used for any sequence of fits, event extractions and resets.", "quantifier": "for all histories of calls", "why_tests_cant": "history independence over arbitrary call sequences.", "anchors": ["sophiread/FastSophiread/src/abs.cpp:ABS::fit", "sophiread/FastSophiread/src/abs.cpp:ABS::get_events"]}
{"id": "C26", "title": "Centroids are accurate and stay on the sensor", "statement": "For every cluster of hits with total ToT > 0 (coordinates 0..515, ToT 0..1023, at most 2^21 hits) the weighted centroid coordinates differ from the exact rational ToT-weighted mean by a relative error of at most 2^-51, the ToT sum is exact, the time of flight is the correctly rounded mean, and the number of hits is exact. If all ToT are zero the coordinates are not numbers.", "quantifier": "for all clusters", "why_tests_cant": "rounding error bound over all clusters.", "anchors": ["sophiread/FastSophiread/src/centroid.cpp:Centroid::fit"]}
{"id": "C27", "title": "TOF binning puts each event into at most one bin", "statement": "With strictly increasing edges e0<...<en every finite event time t (in seconds) with e0 < t < en falls in exactly the bin i with e_i < t <= e_{i+1}; an event exactly on the first or the last edge or outside of them is dropped (so time zero is lost with the default edges, although it passes the range check); an event on an interior edge goes to the lower bin.", "quantifier": "for all edge lists and all event times", "why_tests_cant": "boundary behaviour on every edge.", "anchors": ["sophiread/SophireadCLI/src/sophiread_core.cpp:updateTOFImages", "sophiread/SophireadCLI/src/sophiread_core.cpp:timedCreateTOFImages"]}
{"id": "C28", "title": "TOF images conserve counts", "statement": "The sum of all pixels of all images grows by exactly the number of accepted events (in time range and on the image), each accepted event increments exactly one pixel of one bin by one, and rejected events change nothing (counts below 2^32).", "quantifier": "for all batches of events, all images", "why_tests_cant": "counting identity for arbitrary data.", "anchors": ["sophiread/SophireadCLI/src/sophiread_core.cpp:updateTOFImages"]}
{"id": "C29", "title": "Image accumulation does not depend on batch grouping or order", "statement": "Creating images from all batches at once equals initialising empty images and updating them batch by batch, in any order and any grouping of the batches.", "quantifier": "for all permutations and partitions of the batches", "why_tests_cant": "equivalence over all orders.", "anchors": ["sophiread/SophireadCLI/src/sophiread_core.cpp:updateTOFImages", "sophiread/SophireadCLI/src/sophiread_core.cpp:initializeTOFImages", "sophiread/SophireadCLI/src/sophiread_core.cpp:timedCreateTOFImages"]}
{"id": "C30", "title": "Spectrum rows are the per-bin totals labelled by upper bin edges", "statement": "The spectral file has one row per bin carrying the upper edge of the bin and the sum of that bin's pixels; with fewer than two edges no images exist; image creation for an empty batch list yields images without rows whose saving reads outside the image.", "quantifier": "for all images and edges", "why_tests_cant": "totals and out-of-bounds for degenerate inputs.", "anchors": ["sophiread/SophireadCLI/src/sophiread_core.cpp:calculateSpectralCounts", "sophiread/SophireadCLI/src/sophiread_core.cpp:writeSpectralFile", "sophiread/SophireadCLI/src/sophiread_core.cpp:timedSaveTOFImagingToTIFF"]}
{"id": "C31", "title": "Saving TIFF images accumulates on disk", "statement": "Saving a sequence of equally sized image stacks into one folder leaves, for every bin, the pixelwise sum modulo 2^32 of all stacks with the pixels of a pre-existing readable image of the same size; a size mismatch replaces the file. The spectrum file however only counts the last saved stack.", "quantifier": "for all sequences of saves (histories) and all prior folder contents", "why_tests_cant": "history property over arbitrary many saves.", "anchors": ["sophiread/SophireadCLI/src/sophiread_core.cpp:timedSaveTOFImagingToTIFF"]}
{"id": "C32", "title": "HDF5 extendible output is the concatenation of all appended batches", "statement": "After any sequence of appends each of the hit columns (and each of the neutron columns) contains, in order, the values of all appended records, all columns having equal length; an empty append changes nothing.", "quantifier": "for all sequences of appends", "why_tests_cant": "induction over arbitrary append sequences.", "anchors": ["sophiread/FastSophiread/src/disk_io.cpp:appendHitsToHDF5Extendible", "sophiread/FastSophiread/src/disk_io.cpp:createOrExtendDataset", "sophiread/FastSophiread/src/disk_io.cpp:appendNeutronsToHDF5Extendible"]}
{"id": "C33", "title": "Appended HDF5 groups never overwrite one another", "statement": "Appending to an HDF5 file chooses a group name that does not exist yet: the base name, or base name with the smallest free positive suffix; all earlier groups keep their content.", "quantifier": "for all file contents and base names", "why_tests_cant": "for all existing group sets.", "anchors": ["sophiread/FastSophiread/src/disk_io.cpp:generateGroupName", "sophiread/FastSophiread/src/disk_io.cpp:saveOrAppendToHDF5"]}
{"id": "C34", "title": "Chunked file reading delivers the file exactly once", "statement": "For every file and every positive chunk size, successive reads return consecutive pieces whose concatenation is the file, every piece but the last has exactly the chunk size, end-of-file is reported exactly when everything was delivered, and the number of reads is the ceiling of size/chunk.", "quantifier": "for all files and chunk sizes", "why_tests_cant": "for all sizes including non-dividing.", "anchors": ["sophiread/FastSophiread/src/disk_io.cpp:TPX3FileReader::readChunk"]}
{"id": "C35", "title": "Chunked processing equals whole-file processing when chunks end at dataset boundaries", "statement": "If every chunk boundary falls on the start of a chip dataset, processing the chunks one after another with persistent timestamps yields the same hits, in order, as processing the whole file. If a chunk boundary falls inside a dataset the packets after the boundary up to the next header are silently lost.", "quantifier": "for all files and all chunkings at dataset boundaries", "why_tests_cant": "equivalence over all cut points; loss needs a specific cut.", "anchors": ["sophiread/SophireadCLI/src/sophiread.cpp:main", "sophiread/SophireadCLI/src/sophiread_core.cpp:timedLocateTimeStamp", "sophiread/SophireadCLI/src/sophiread_core.cpp:timedProcessing"]}
{"id": "C36", "title": "GDC extraction reports every global timestamp with its file offset", "statement": "For a file processed in chunks that are multiples of 8 bytes, each reported record belongs to an MSB GDC packet at the reported 8-byte aligned file offset, carries the assembled non-zero timestamp and the chip of the last preceding header of the same chunk; records are in increasing offset order; MSB packets before the first header of a chunk, or under a header with a chip byte of 128 or more, are not reported.", "quantifier": "for all files and chunkings", "why_tests_cant": "dependence on chunk boundaries over arbitrary files.", "anchors": ["sophiread/FastSophiread/src/gdc_processor.cpp:GDCProcessor::processChunk", "sophiread/SophireadCLI/src/gdc_extractor.cpp:GDCExtractor::process"]}
{"id": "C37", "title": "GDC extraction depends on the chunk size only through chip attribution", "statement": "The timer and global timestamp state after a file and the list of candidate (offset, timestamp) pairs are the same for every multiple-of-8 chunking; what changes is that the current chip is forgotten at chunk starts, so compared with reading the file at once, or with a multiple of the chunk size, records disappear but none appear or change. Of two sizes of which none is a multiple of the other, the smaller one can report a record that the larger one loses.", "quantifier": "for all files and pairs of chunkings", "why_tests_cant": "two-run property over all chunkings.", "anchors": ["sophiread/FastSophiread/src/gdc_processor.cpp:GDCProcessor::processChunk"]}
{"id": "C38", "title": "The auto reducer counts each file once", "statement": "Over any history of directory scans a regular file named *.tpx3 that was reduced successfully is never worked on again, and every completed scan works on exactly the regular *.tpx3 files not yet reduced, in directory order. While saving is not disturbed the images on disk are the sums modulo 2^32 of what was there at the start and of the images of the files reduced so far. A file whose saving was interrupted by an exception is retried, and the bins already written then count it twice; a file without dataset header is undefined behaviour; a file that cannot be opened ends the program; the images depend on how files are spread over scans.", "quantifier": "for all histories of directory contents, failures and write orders", "why_tests_cant": "history of arbitrary failures and directory contents.", "anchors": ["sophiread/SophireadCLI/src/venus_auto_reducer.cpp:process_existing_files", "sophiread/SophireadCLI/src/venus_auto_reducer.cpp:monitor_directory"]}
{"id": "C39", "title": "The auto reducer may stop before reducing files already present", "statement": "Monitoring stops at the first poll that sees a file ending in .nxs.h5, without processing raw files that appeared since the previous poll, and for no other reason.", "quantifier": "for all directory histories", "why_tests_cant": "timing-dependent; tests do not run the monitor.", "anchors": ["sophiread/SophireadCLI/src/venus_auto_reducer.cpp:monitor_directory"]}
{"id": "C40", "title": "Text configuration: last assignment wins and order of different keys is irrelevant", "statement": "A text configuration is read successfully exactly if no line names one of its three parameters without a value (such a line uses an uninitialised variable). Each parameter then has the value of the last line about it, or its default; integers are limited to 32 bits and negative ones wrap to 64-bit unsigned. Comments, unknown keys and the keys tof_bins and tof_max have no effect; lines about different parameters commute; a final line break does not matter; the bins are always the default ones.", "quantifier": "for all texts", "why_tests_cant": "all files, all orders of lines, all spacings.", "anchors": ["sophiread/SophireadCLI/src/user_config.cpp:parseUserDefinedConfigurationFile"]}
{"id": "C41", "title": "TOF bin edges", "statement": "Custom bin edges, when given, are used verbatim. Uniform binning into 1 <= n < 2^31-1 bins yields n+1 finite, strictly increasing edges starting at 0, the i-th within relative error 2^-51 of i/n of the maximum; the last edge can differ from the maximum. Zero bins give one NaN edge, -1 none, fewer an exception, 2^31-1 a signed overflow.", "quantifier": "for all bin counts and maxima between 2^-900 and 2^900", "why_tests_cant": "all parameter combinations incl. degenerate.", "anchors": ["sophiread/SophireadCLI/include/tof_binning.h:TOFBinning::getBinEdges"]}
{"id": "C42", "title": "Streaming program: batches are consecutive pieces of the hits, with at most one gap", "statement": "In every schedule of the streaming program that ends, the batches handed to the clustering are, in order, full batches of 10000 hits followed by the hits after a gap; the gap is a consecutive piece of fewer than 10000 hits that is in no batch, and no hit is in two batches. Every such division is reached by some schedule (also the one without gap and, below 10000 hits, the one that loses everything). The end is reachable from every state, and at most three steps more than there are queued hits follow the end of the reader. If the file cannot be opened the program never ends.", "quantifier": "for all hits and all interleavings of reader and processor", "why_tests_cant": "loss and non-termination depend on the schedule.", "anchors": ["sophiread/SophireadStreamCLI/src/sophiread_stream.cpp:processor", "sophiread/SophireadStreamCLI/src/sophiread_stream.cpp:reader"]}
{"id": "C43", "title": "Alternative timing: times of flight within one frame, rollovers followed", "statement": "The file reader of SophireadLib gives every hit a time of flight below 666667 ticks, the arrival time modulo one frame. The time packets of the file have no influence: the hits depend on the pixel packets alone, so the time of flight is not the time since the trigger. Arrival times of which each is less than half a clock period (2^29 ticks) from the previous one, starting at time 0, are recovered exactly.", "quantifier": "for all packets, states, files and sequences of arrival times", "why_tests_cant": "rollovers happen every 27 s; tests use files without any.", "anchors": ["sophiread/SophireadLib/src/tpx3.cpp:packetToHitAlt", "sophiread/SophireadLib/src/tpx3.cpp:readTimepix3RawData"]}
{"id": "C44", "title": "DBSCAN time-cluster merging preserves every hit of surviving clusters", "statement": "Merging orders the time clusters by their smallest time and cuts them into groups: within a group each cluster but the first begins at most epsilon after the end of an earlier one (or before it), and clusters of different groups are more than epsilon apart. The result is exactly the list of the unions (hit indices, smallest and largest time, sum, mean) of the groups with at least the minimal number of hits; no index is lost, created or duplicated.", "quantifier": "for all non-empty lists of clusters with times of magnitude up to 2^60 and any correct sort", "why_tests_cant": "all cluster lists, boundary distances included.", "anchors": ["sophiread/SophireadLib/src/dbscan.cpp:DBSCAN::mergeTimeClusters1D"]}
{"id": "C45", "title": "Nanosecond accessors are exact", "statement": "For every decoded hit (arrival time below 2^48 ticks) the double returned by each nanosecond accessor is exactly the tick count times 25 (fine time: times 25/16); no rounding occurs.", "quantifier": "for all field values within their widths", "why_tests_cant": "2^48 arrival times; tests compare a few values with a tolerance.", "anchors": ["sophiread/FastSophiread/include/hit.h:getTOF_ns", "sophiread/FastSophiread/include/hit.h:getFTOA_ns"]}
{"id": "C46", "title": "A plain save never touches an existing file of the requested name", "statement": "Saving hits or neutrons to a path that exists leaves that file unchanged and writes a complete new file whose name carries six digits of microseconds; no other file changes. Two saves that draw the same microseconds collide: the second replaces the first.", "quantifier": "for all disks, paths, microsecond values and data", "why_tests_cant": "collisions depend on the clock; tests save at most twice.", "anchors": ["sophiread/FastSophiread/src/disk_io.cpp:saveHitsToHDF5", "sophiread/FastSophiread/src/disk_io.cpp:saveNeutronToHDF5", "sophiread/FastSophiread/src/disk_io.cpp:generateFileNameWithMicroTimestamp"]}
{"id": "C47", "title": "A run of the command line program writes exactly the decoded hits and their neutrons", "statement": "For every well-formed raw stream and every chunk size that cuts at dataset starts, a completed run appends to the hit file one row per pixel packet that comes after the first timestamps, in file order, each with the timestamps current at that packet; appends to the event file the neutrons of each dataset clustered on its own; adds to every image pixel the number of entries whose time and rounded position fall there; and counts hits and neutrons modulo 2^64. It completes whenever no time exceeds 48 bits (GDC mode) and no hit precedes its TDC (TDC mode); otherwise the behaviour can be undefined.", "quantifier": "for all well-formed streams, configurations, modes and previous contents of the outputs", "why_tests_cant": "end-to-end statement over all streams; undefined cases need a run that starts less than 27 s after the clock reset.", "anchors": ["sophiread/SophireadCLI/src/sophiread.cpp:main", "sophiread/SophireadCLI/src/sophiread_core.cpp:timedProcessing", "sophiread/SophireadCLI/src/sophiread_core.cpp:updateTOFImages", "sophiread/FastSophiread/src/disk_io.cpp:appendHitsToHDF5Extendible"]}
{"id": "C48", "title": "Command line options: last one wins, defaults otherwise, invalid ones rejected", "statement": "The options in effect are, for each option letter, the last value given, or the documented default if none was given; the command line is accepted exactly if every option is known, every chunk size is a number, an input file was given, the mode is hit or neutron and the timing gdc or tdc; the chunk size is the given number of mebibytes modulo 2^64. Everything else ends in an exception.", "quantifier": "for all argument sequences", "why_tests_cant": "all orders and repetitions of twelve options.", "anchors": ["sophiread/SophireadCLI/src/sophiread.cpp:parse_arguments"]}
{"id": "C49", "title": "GDC extractor command line: last option wins, chunk size always usable", "statement": "The GDC extractor accepts a command line exactly if every option is known, every chunk size is a number, the last named input exists and is readable, the last named output can be created, and the chunk size in effect lies between 1 MiB and 20 GiB; an accepted chunk size is then a whole number of mebibytes, so never splits a packet.", "quantifier": "for all argument sequences and file system answers", "why_tests_cant": "all orders and repetitions of options, and the wrap-around of huge sizes.", "anchors": ["sophiread/SophireadCLI/src/main_gdc_extractor.cpp:parse_arguments", "sophiread/SophireadCLI/src/gdc_extractor.cpp:GDCExtractorOptions::validate"]}
{"id": "C50", "title": "Auto reducer command line: last option wins", "statement": "The auto reducer accepts a command line exactly if every option is known, every check interval is a number, the last input and output directories are non-empty, the last mode is hit or neutron, and the last check interval is positive; the settings are then the last ones given, or the defaults.", "quantifier": "for all argument sequences", "why_tests_cant": "all orders and repetitions of options.", "anchors": ["sophiread/SophireadCLI/src/venus_auto_reducer.cpp:parse_arguments"]}
{"id": "C51", "title": "JSON configuration: value at its place or default", "statement": "A JSON configuration is accepted exactly if it is an object, each setting has a value of the right kind at its place or none, and the bins are usable; each setting then equals that value or its default. Explicit bin edges take precedence over uniform bins, those over the default; an empty list of edges selects 1500 bins up to 1/60 s. Values of the wrong kind raise an exception; the behaviour is undefined only for a fraction beyond the range of an integer setting and for 2^31 - 1 bins.", "quantifier": "for all JSON values", "why_tests_cant": "all documents, all missing, misplaced or mistyped values.", "anchors": ["sophiread/SophireadCLI/src/json_config_parser.cpp:JSONConfigParser::parseTOFBinning", "sophiread/SophireadCLI/src/json_config_parser.cpp:JSONConfigParser::getABSRadius"]}
{"id": "C52", "title": "Choice of the configuration format", "statement": "Without a configuration file the JSON defaults are used. A file whose name (after the last slash) ends in .json with something before it is read as JSON, every other file as text; the auto reducer reads every file as JSON. A text file that does not exist ends the program, one that cannot be opened gives the text defaults, whose bins differ from the JSON defaults.", "quantifier": "for all file names and contents", "why_tests_cant": "all names and paths.", "anchors": ["sophiread/SophireadCLI/src/sophiread.cpp:main", "sophiread/SophireadCLI/src/json_config_parser.cpp:JSONConfigParser::createDefault"]}
{"id": "C53", "title": "SophireadLib hits: fields of the packet, first time at or after the reference", "statement": "A hit of SophireadLib carries the fields packed in its packet, lies at the place of its chip, and its arrival time is the first one at or after the GDC timestamp with the 30 bits of the packet (GDC below 2^48 - 2^30). It agrees with the hit of FastSophiread in every field, except that a hit which FastSophiread takes to precede the GDC (one second or more after it by the 30 bits) is stamped 2^30 ticks later.", "quantifier": "for all packets and timestamps", "why_tests_cant": "all 64-bit packets and 48-bit timestamps; a hit just before a time packet is rare in test data.", "anchors": ["sophiread/SophireadLib/src/tpx3.cpp:Hit::Hit", "sophiread/SophireadLib/src/tpx3.cpp:packetToHit"]}
{"id": "C54", "title": "SophireadLib hits that precede their trigger", "statement": "From the trigger on the time of flight is the difference to the trigger modulo 2^32. Before the trigger the constructor adds 16666667, a frame in nanoseconds, to the difference in 25 ns ticks, so a hit up to 16000000 ticks early gets a time of flight longer than a frame; packetToHit is defined exactly if the hit does not precede the trigger.", "quantifier": "for all packets and 48-bit timestamps", "why_tests_cant": "undefined conversions give some value on the test machine.", "anchors": ["sophiread/SophireadLib/src/tpx3.cpp:Hit::Hit", "sophiread/SophireadLib/src/tpx3.cpp:packetToHit"]}
{"id": "C55", "title": "SophireadLib reads beyond its buffer exactly on incomplete input", "statement": "readTimepix3RawData is defined exactly on files that consist of whole packets and complete datasets, parseRawBytesToHits exactly on buffers that do so up to at most 8 bytes at the end; every other input makes them read beyond the buffer, in particular a file whose length is not a multiple of 8 or whose last dataset is cut off. Well-formed streams are defined for both.", "quantifier": "for all byte sequences", "why_tests_cant": "out-of-bounds reads go unnoticed without instrumentation.", "anchors": ["sophiread/SophireadLib/src/tpx3.cpp:readTimepix3RawData", "sophiread/SophireadLib/src/tpx3.cpp:parseRawBytesToHits"]}
{"id": "C56", "title": "fastParseTPX3Raw returns only blank hits; batches restart the time reference", "statement": "fastParseTPX3Raw never decodes anything: on a well-formed stream it returns one all-zero hit for each payload packet of whatever kind. processBatch makes one hit for each pixel packet of its dataset, with a time reference that starts at 0, so batchwise decoding differs from decoding the whole stream.", "quantifier": "for all streams and positions of the dataset", "why_tests_cant": "only the size of the result is checked by a benchmark.", "anchors": ["sophiread/SophireadLib/src/tpx3.cpp:fastParseTPX3Raw", "sophiread/SophireadLib/src/tpx3.cpp:processBatch"]}
{"id": "C57", "title": "parseRawBytesToHits makes exactly one hit per pixel packet under the current reference", "statement": "On every buffer for which it is defined, parseRawBytesToHits returns exactly one hit for each pixel packet of a dataset, in file order, made from the GDC and TDC timestamps assembled from all payload packets before it, across datasets; a hit is made even if there was no time packet yet (timestamps 0).", "quantifier": "for all framed buffers", "why_tests_cant": "all interleavings of packet kinds over datasets.", "anchors": ["sophiread/SophireadLib/src/tpx3.cpp:parseRawBytesToHits"]}
{"id": "C58", "title": "Streaming program: what the reader makes of the end of a file", "statement": "The reader always comes to an end. By the rules of the language it is defined exactly for files that end in one to seven bytes which cannot begin a header and whose pixel packets do not precede their trigger; then each pixel packet gives exactly one hit. No file of whole packets qualifies. If local arrays keep their content, a well-formed stream gives one hit per pixel packet, followed by one more copy of the last hit for every packet of the last dataset if its last packet is a pixel packet; a dataset cut off by the end of the file is filled up with copies of its last packet.", "quantifier": "for all files", "why_tests_cant": "the behaviour at the end of the file is undefined and looks plausible in a test.", "anchors": ["sophiread/SophireadStreamCLI/src/sophiread_stream.cpp:reader"]}
{"id": "C59", "title": "Streaming program: results of complete runs", "statement": "If reading is defined so is the rest of a run. The result is the events of the batches in order (each batch clustered on its own with four slots, 5 pixels and 75 ns), each with at least 8 hits and together with at most as many hits as were read and not lost; or, if there are none, an exception before the output file is touched. Every division of the hits that C42 allows leads to its result; so a file with fewer than 10000 hits can end in the exception whatever its content, and with fewer than 8 hits it always does. Asking for events with another number of hits than were clustered is refused.", "quantifier": "for all files, schedules and least squares solvers", "why_tests_cant": "depends on the schedule.", "anchors": ["sophiread/SophireadStreamCLI/src/sophiread_stream.cpp:process_batch", "sophiread/SophireadStreamCLI/src/sophiread_stream.cpp:main", "sophiread/SophireadLib/src/abs.cpp:ABS::get_events"]}
{"id": "C60", "title": "DBSCAN time clusters are the classes of hits linked in time", "statement": "Fitting neither fails nor leaves the bounds of a vector. The time clusters it forms are exactly the classes of hits whose 14-bit times of arrival are linked by steps of at most epsilon and which have at least the minimal number of members. They depend neither on the chunk size of two million hits nor on the clusters mlpack finds within a chunk, provided it never puts unlinked points into one cluster.", "quantifier": "for all vectors of fewer than 2^31 hits, chunk sizes, finite epsilons and clusterings of the chunks", "why_tests_cant": "the chunk boundary is at two million hits; tests use a few hundred.", "anchors": ["sophiread/SophireadLib/src/dbscan.cpp:DBSCAN::fit", "sophiread/SophireadLib/src/dbscan.cpp:DBSCAN::mergeTimeClusters1D"]}
{"id": "C61", "title": "DBSCAN labels and events correspond", "statement": "After the first fit of an object there is one label per hit, -1 or the number of an event. Event number l counts the hits labelled l, at least one; they are one of the clusters mlpack finds among the pixels of one time class; the position of the event is the centroid of that cluster, its time the mean time of arrival of the whole time class, its time over threshold 0. A hit labelled -1 lies in a time class below the minimal size or in no cluster of the plane.", "quantifier": "for all vectors of fewer than 2^31 hits and clusterings", "why_tests_cant": "labels are offset by the clusters of all earlier time classes; all combinations of noise and clusters.", "anchors": ["sophiread/SophireadLib/src/dbscan.cpp:DBSCAN::fit"]}
{"id": "C62", "title": "DBSCAN objects used repeatedly", "statement": "The events of a fit do not depend on earlier fits, nor do the labels of hits in time classes of the minimal size. The other labels are those an earlier fit left at the same index, so labels can name events that do not exist; with a minimal number of at most one hit there are no such labels. As long as an object has events, get_events returns them without looking at its argument.", "quantifier": "for all objects, hits and histories", "why_tests_cant": "needs a history of fits.", "anchors": ["sophiread/SophireadLib/src/dbscan.cpp:DBSCAN::fit", "sophiread/SophireadLib/src/dbscan.cpp:DBSCAN::get_events"]}
{"id": "C63", "title": "DBSCAN sees only the 14-bit time of arrival", "statement": "Labels and events depend only on the pixels and the 14-bit times of arrival of the hits, which wrap every 409.6 microseconds. Hits with equal 14-bit times are in one time class however far apart they arrived.", "quantifier": "for all hits and arrival times", "why_tests_cant": "test hits lie within one period.", "anchors": ["sophiread/SophireadLib/src/dbscan.cpp:DBSCAN::fit"]}
{"id": "C64", "title": "Display: hits are decoded and placed without gap", "statement": "A hit of the display program carries the fields packed in its packet, the 30-bit time, and the time since the trigger modulo 2^32, for every chip byte. Different pixels of the four chips have different places, and every position of the 512 x 512 image is the place of some pixel (there is no gap between the chips).", "quantifier": "for all packets, chips and triggers", "why_tests_cant": "all 64-bit packets.", "anchors": ["sophiread_display/mainwindow.cpp:filetohits"]}
{"id": "C65", "title": "Display: what is read of a file", "statement": "For every file the hits and histogram entries are exactly those of the packets that are read, or the program uses bytes that were never read. Both bytes of the size field are signed: of a dataset of n packets all are read if n < 4096 and n mod 32 < 16; otherwise 32 fewer (none, for 16 to 31) or, from 4096 on, none. A dataset cut off by the end of the file is filled up with its last packet.", "quantifier": "for all byte sequences", "why_tests_cant": "depends on the size of each dataset and on the end of the file.", "anchors": ["sophiread_display/mainwindow.cpp:filetohits"]}
{"id": "C66", "title": "Display: time-of-flight histogram", "statement": "The histogram gets an entry exactly for the pixel packets of chip-local columns 251 to 255 and rows 126 to 255 whose time of flight is below 170000 steps of 100 ns. For every file all entries are inside of the histogram. The window is not a window of the image: hits inside of columns 251 to 424 of the image are left out, hits outside are counted.", "quantifier": "for all packets, triggers and files", "why_tests_cant": "all times, including those before the trigger, which wrap.", "anchors": ["sophiread_display/mainwindow.cpp:filetohits"]}
{"id": "C67", "title": "Display: clusters in the ring of 128 slots", "statement": "The clusters are uniquely determined by the hits: a hit joins the open cluster with the smallest slot of those whose first hit is less than 3 ticks away and whose rectangle is at most 5 pixels away; otherwise it begins a cluster, and the oldest one is closed if 127 are open. Every hit is in exactly one cluster; closed clusters of more than 10 hits are counted and shown; the run is undefined exactly by a sum that does not fit an int or by such a cluster without ToT.", "quantifier": "for all hit sequences", "why_tests_cant": "all sequences; slots are reused after 128 clusters.", "anchors": ["sophiread_display/hit_worker.cpp:runme"]}
{"id": "C68", "title": "Display: the pixel of a cluster, and clusters that are never shown", "statement": "The pixel of a cluster is the integer part of values within 2^-36 of the exact rotated ToT-weighted mean in eighths of a pixel, or nothing if outside of the 4096 x 4096 image. Clusters still open at the end (up to 127) are never counted or shown. Hits that a detector can give make the program overflow an int or convert a NaN.", "quantifier": "for all clusters and rotations with finite sine and cosine of at most 1", "why_tests_cant": "rounding errors for all sums; undefined conversions look plausible.", "anchors": ["sophiread_display/hit_worker.cpp:runme"]}
{"id": "C69", "title": "Display: ring buffer between reader and worker", "statement": "In every schedule the worker uses the first hits of the file in order, each once, and never an unset slot; the ring never overwrites an unused hit. When the worker has ended at most 4095 hits are missing at the end, and every such result occurs in some schedule, so it can end without having used any hit of a file of at most 4095. From every state both threads can come to their end, with all hits used if the worker has not been stopped yet.", "quantifier": "for all hit sequences and schedules", "why_tests_cant": "depends on the schedule of two threads and a timer.", "anchors": ["sophiread_display/mainwindow.cpp:filetohits", "sophiread_display/hit_worker.cpp:runme", "sophiread_display/mainwindow.cpp:handletimer"]}
{"id": "C70", "title": "GUI: events and image of the files read", "statement": "If a readable file with at least one hit is chosen, the window holds exactly the events of that file (its hits clustered with radius 5, 75 ns, four slots, weighted centroid; no hit with positive time over threshold is lost) and each event increments the pixel of the 512 x 512 image in which it falls after the rotation, or none if it falls outside. After any sequence of actions (reading, saving, changing the range, timer) without a cancelled dialog every pixel counts the events of all files read so far, so the image is not that of the last file, and events outside 512 x 512 are not shown. A file without hits is dereferenced past the end, a cut off file is read out of bounds, an unopenable one throws.", "quantifier": "for all files, rotations and sequences of user actions", "why_tests_cant": "depends on the history of user actions and on every file content.", "anchors": ["sophiread/SophireadGUI/src/mainwindow.cpp:handlereadfile", "sophiread/SophireadLib/src/abs.cpp:fit"]}
{"id": "C71", "title": "GUI: a cancelled dialog blocks the program", "statement": "The window is busy exactly if a reading dialog has been cancelled before. From then on no action of the user changes the events, the image or any file, for ever; if no file had been read before, the timer displays an uninitialised counter.", "quantifier": "for all sequences of user actions", "why_tests_cant": "is about all futures of an interactive program.", "anchors": ["sophiread/SophireadGUI/src/mainwindow.cpp:handlereadfile", "sophiread/SophireadGUI/src/mainwindow.cpp:handletimer", "sophiread/SophireadGUI/src/mainwindow.cpp:handlesavedata"]}
{"id": "C72", "title": "Library: HDF5 output of hits and events", "statement": "Saving hits (events) makes a file with one group and exactly the eight (five) datasets, each holding the values of its quantity in input order; an existing file is replaced and no other file is touched. Different numbers of hits and labels, or no events, are an exception before any file is touched. Hits of which one has no time of flight are undefined behaviour, also before any file is touched. If the HDF5 library fails at any point the exception is passed on, other files are unchanged, and all datasets but possibly the last one in the file are right.", "quantifier": "for all hits, events, labels, existing files and failures of the HDF5 library", "why_tests_cant": "failures at every point of the library cannot be provoked by tests.", "anchors": ["sophiread/SophireadLib/src/tpx3.cpp:saveHitsToHDF5", "sophiread/SophireadLib/src/tpx3.cpp:saveEventsToHDF5"]}
{"id": "C73", "title": "Library: parameter file", "statement": "For every text each of the three parameters has the value of the last line that gives it one (an unsigned 64-bit number, wrapped if negative, saturated if too long), and its default if there is none or the file cannot be opened. For complete files with numbers that fit in an int this is the same as what the command line parser reads, for others it is not.", "quantifier": "for all texts", "why_tests_cant": "all texts.", "anchors": ["sophiread/SophireadLib/src/tpx3.cpp:parseUserDefinedParams", "sophiread/SophireadCLI/src/user_config.cpp:parseUserDefinedConfigurationFile"]}
{"id": "C74", "title": "GUI: saving image and events", "statement": "The saved image has 512 rows of 512 doubles, column i of row j being the count of pixel (i, j); other files are unchanged. The saved events are those shown, in the form of C72; without events an exception is thrown and the HDF5 files are unchanged. If the image file cannot be opened, a null pointer is written to.", "quantifier": "for all images, events and file names", "why_tests_cant": "all images.", "anchors": ["sophiread/SophireadGUI/src/mainwindow.cpp:handlesavedata"]}
{"id": "C75", "title": "Command line program: a whole run", "statement": "If a run of the program on a file of complete datasets ends normally, the hit and event files hold exactly the hits and neutrons of all datasets in order, the reported counts are their numbers, every pixel of every image is its earlier content plus the number of hits (or neutrons, by mode) that fall into its bin and pixel, and each spectrum row has the upper bin edge and the number of entries of that bin inside of the image; no other file has changed. With images of fewer than 2^30 columns, times below 2^48 and a TDC before every hit such a run does end normally. Without input, or with an empty one, or if the output directory cannot be made, it ends by an exception.", "quantifier": "for all files of complete datasets, options, settings, earlier disk contents and orders of the parallel TIFF writing", "why_tests_cant": "composition of all stages for all inputs; tests use one stage at a time.", "anchors": ["sophiread/SophireadCLI/src/sophiread.cpp:main"]}
{"id": "C76", "title": "Fast Gaussian fit", "statement": "For a cluster of at least eight hits the fit uses exactly the hits whose time over threshold is above the median of the cluster (at most half of them). The event reports the number of all hits, the exact sum of the heights over the median, the correctly rounded mean time of flight of the used hits, and half of the least squares solution of a linear system whose rows are the exact coordinates, the logarithm of the height over the median, and whose right hand side is exactly x^2 + y^2. Fewer than eight hits give the invalid event (-1, -1, 0, 0, 0 hits). If all hits have the same time over threshold no hit is used and the time of flight is NaN.", "quantifier": "for all clusters of up to 2^20 sensor hits and all least squares solvers and logarithms", "why_tests_cant": "tests use a few synthetic peaks; ties at the median and equal heights are not tested.", "anchors": ["sophiread/FastSophiread/src/fastgaussian.cpp:fit", "sophiread/FastSophiread/src/fastgaussian.cpp:getMedian"]}
{"id": "C77", "title": "Manufacturer's converter: lines of text", "statement": "For every stream of datasets the converter writes, in order, one line per pixel packet (position by chip, arrival time correctly rounded from the exact number of sixteenths of 25 ns, exact time over threshold), one line per trigger packet (time within a relative error of 2^-51 for valid fine codes) and one per global time packet, and reports the number of trigger packets. Words between datasets that do not begin with TPX are skipped. Its pixel lines are the hits of the library for the same packets, except that the fine time counts backwards. A global time packet before the first pixel reads an unset variable, a file that ends inside a dataset is read beyond its end, and a file whose length is not a multiple of 8 overflows the buffer.", "quantifier": "for all streams of datasets", "why_tests_cant": "all packet contents and orders; reading beyond the buffer looks plausible.", "anchors": ["sophiread/resources/manufacture/tpx3cam.cpp:main"]}
{"id": "C78", "title": "Packing of test data", "statement": "A file made with the two packing functions of the test data generator is byte for byte the stream of one dataset with these pixels, and the time printed on reading back is the 30-bit time of the pixel. Arguments out of range are cut to their fields, except for the fine time, whose upper four bits are merged into the time over threshold.", "quantifier": "for all arguments", "why_tests_cant": "the generator uses one value of each field but the time.", "anchors": ["sophiread/SophireadLib/tests/generate_fake_tpx3_data.cpp:packDataHeader", "sophiread/SophireadLib/tests/generate_fake_tpx3_data.cpp:packPixelHit", "sophiread/SophireadLib/tests/generate_fake_tpx3_data.cpp:main"]}
{"id": "C79", "title": "Display program: sessions", "statement": "Whatever the user, the timer and the two threads do, data that are saved while no file is being read are those of the last file of which reading was started: the image holds, column by column, how many closed clusters of more than 10 hits fall on each of 4096 x 4096 pixels, made from all hits of the file but at most the last 4095; the spectrum holds the number of histogram entries of each of the 170000 bins modulo 2^32; the numbers shown are those of all hits and of the closed clusters; other files are unchanged. While a file is being read nothing can be saved or read. The program can always come to rest. It becomes undefined only through a file that cannot be opened or read, or through clusters with sums beyond an int or without time over threshold. A spectrum saved before any file has been read is indeterminate, and two runs on the same file can save different images.", "quantifier": "for all sessions: sequences of files, dialogs, timer ticks and interleavings of the threads", "why_tests_cant": "depends on the schedule of the threads and on earlier actions; there are no tests of the program.", "anchors": ["sophiread_display/mainwindow.cpp:handlereadfile", "sophiread_display/mainwindow.cpp:handletimer", "sophiread_display/mainwindow.cpp:handlesavedata"]}
{"id": "C80", "title": "benchmark_mmap: a whole run", "statement": "If a run on a file of complete datasets ends normally, the reported number of hits is that of all datasets (with the option tgdc times run through the file, otherwise every dataset starts from zero times), the bad hits are those whose time of flight in ms is above 1/rate + 10^-6, where rate is the last known rate named in the options, and the output file (.csv appended to, .bin and .h5 replaced, others ignored) holds the events of all datasets in order; other files are unchanged. The number of events reported is exact for one window and an upper bound otherwise. Threads and the way in which the batches are shared out change nothing. Without input, or with an input that is to be mapped and is not writable, the status is 1 and nothing is written. Runs do end if times stay below 2^48 and the output can be represented, and never for a file whose size is not a multiple of 8. Late hits are counted as bad but hits within the pulse period are too, times are written as 625 instead of 25 times the clock count, and .bin files cannot be decoded.", "quantifier": "for all files of complete datasets, options, window sizes, earlier disk contents and ways to share out the batches", "why_tests_cant": "composition of all stages for all inputs and schedules; the program has no tests.", "anchors": ["sophiread/FastSophiread/benchmarks/benchmark_mmap.cpp:main", "sophiread/FastSophiread/benchmarks/benchmark_mmap.cpp:saveEventsToCSV", "sophiread/FastSophiread/benchmarks/benchmark_mmap.cpp:saveEventsToBIN", "sophiread/FastSophiread/benchmarks/benchmark_mmap.cpp:saveEventsToHDF5"]}
{"id": "C81", "title": "Command line program: exit codes and outputs", "statement": "The program returns 0, returns 1 or is terminated. If it returns 0 on a file of complete datasets, the HDF5 files named with -H and -E hold exactly the hits and neutrons of all datasets (earlier content is gone), images and spectra count them as in C75, and no other file has changed. It does return 0 if the outputs can be created, the images have fewer than 2^30 columns and times are early enough; without -u the configuration is the default one. A command line that is not understood, a configuration that cannot be read, and a missing or empty input give 1 and change nothing. If it does not return 0 no image or spectrum has been written. It is terminated exactly if an HDF5 output cannot be created, which includes the same name for -H and -E (after an earlier file of that name has been emptied). It ends for every input. With -c 0 it returns 0 with empty outputs; without -s it writes Spectra.txt.", "quantifier": "for all command lines, configurations, inputs, earlier disk contents and outcomes of file system calls", "why_tests_cant": "the combinations of failures and options; no test runs main.", "anchors": ["sophiread/SophireadCLI/src/sophiread.cpp:main"]}
{"id": "C82", "title": "GDC extractor program: exit code and CSV file", "statement": "With usable options and a non-empty input file other than the output the program returns 0 and the output file holds, as text with the line chip_id,gdc_value,file_offset,timestamp_ns and then four decimal numbers per line, exactly the records of C36 in file order; the records can be read back from the text and no other file changes. In all other cases it returns 1. A command line that is refused before the output is tried changes no file; a chunk size out of bounds leaves an existing output alone and creates an empty one otherwise; if the input is empty or is the output the file is left with the header line only, so an earlier result or the measured data is lost. If the disk is full the program returns 0 with an incomplete output.", "quantifier": "for all command lines, inputs, earlier disk contents and answers of the file system", "why_tests_cant": "the text of every record and the combinations of failures; no test runs main.", "anchors": ["sophiread/SophireadCLI/src/main_gdc_extractor.cpp:main", "sophiread/SophireadCLI/src/gdc_extractor.cpp:GDCExtractor::process", "sophiread/SophireadCLI/src/gdc_extractor.cpp:GDCExtractorOptions::validate"]}
{"id": "C83", "title": "Auto reducer program: exit codes and images", "statement": "With options that are understood, a JSON configuration that can be loaded and a directory that can be listed, main is the monitoring of C38 and C39. However it ends, the images on disk are the sums of the images of the files saved so far, added to what was there before, and other files are untouched. It returns 0 exactly if a check sees a *.nxs.h5 file. It returns 1 for a command line that is not understood or a configuration that cannot be loaded (before anything is done), for a directory that cannot be listed, even once, and for a raw file that cannot be opened, and for nothing else. With a configuration whose bin edges cannot be made (a negative number of bins) it goes on, but nothing is ever saved.", "quantifier": "for all command lines, configurations, sequences of directory contents, listing failures and earlier disk contents", "why_tests_cant": "depends on the history of the directory and on failures at any time; no test runs main.", "anchors": ["sophiread/SophireadCLI/src/venus_auto_reducer.cpp:main", "sophiread/SophireadCLI/src/venus_auto_reducer.cpp:monitor_directory", "sophiread/SophireadCLI/src/venus_auto_reducer.cpp:process_existing_files"]}
{"id": "C84", "title": "Streaming program: exit code and output file", "statement": "SophireadStream returns 1 exactly for a wrong number of arguments, without writing anything. If it returns 0, events_streamed.h5 holds one group with exactly the events of one division of the hits of the file into batches of 10000, lost hits and a last batch (at least one event), whatever it held before, and no other file has changed; every such division with events is the result of some run. Otherwise it is aborted by an exception, because there are no events (the file stays) or because the HDF5 library failed. It can always come to an end if the input can be opened, and never ends otherwise. With fewer than 10000 hits it may be aborted whatever the hits.", "quantifier": "for all files, arguments, interleavings of the two threads, earlier disk contents and failures of the HDF5 library", "why_tests_cant": "the outcome depends on the schedule; the program has no tests.", "anchors": ["sophiread/SophireadStreamCLI/src/sophiread_stream.cpp:main", "sophiread/SophireadStreamCLI/src/sophiread_stream.cpp:processor"]}
{"id": "C85", "title": "benchmark_raw2hits and benchmark_raw2events: whole runs", "statement": "Both programs return 1 exactly without an argument or with a file that cannot be opened, and write nothing then. On a file of complete datasets benchmark_raw2hits reports for one thread and for the parallel loop the number of hits of the datasets, each read without the times of earlier ones, however the loop is scheduled; that is at most the number benchmark_raw2events reports (unless the clock is about to overflow), and not always the same number. benchmark_raw2events reports the number of all hits, how many of them are later than 16.67 ms, and 25 times the latest arrival, and saves all hits in one file; its parallel variant run_multi_thread, however the loop is split and scheduled, can be run to its end and then reports the same number of hits and of late hits. The arrival read back from verify_spidertime.h5 is the one reported if there was no such file and there are hits; without hits the program is aborted by an exception. If there was such a file, the old file is read and the value says nothing about the hits.", "quantifier": "for all files of complete datasets, schedules, earlier disk contents and times", "why_tests_cant": "the schedule and the content of the working directory; the benchmarks are never run by tests.", "anchors": ["sophiread/FastSophiread/benchmarks/benchmark_raw2hits.cpp:main", "sophiread/FastSophiread/benchmarks/benchmark_raw2hits.cpp:run_multi_thread", "sophiread/FastSophiread/benchmarks/benchmark_raw2events.cpp:main", "sophiread/FastSophiread/benchmarks/benchmark_raw2events.cpp:check_bad_tof"]}
{"id": "C86", "title": "Saving all batches at once", "statement": "timedSaveHitsToHDF5 (timedSaveEventsToHDF5) writes one file with one group whose columns hold the values of the hits (neutrons) of all batches in order, under the name asked for if it is free; other files are unchanged, and without hits (neutrons) nothing is written.", "quantifier": "for all batches and earlier disk contents", "why_tests_cant": "order and completeness over any number of batches, some of them empty.", "anchors": ["sophiread/SophireadCLI/src/sophiread_core.cpp:timedSaveHitsToHDF5", "sophiread/SophireadCLI/src/sophiread_core.cpp:timedSaveEventsToHDF5"]}
{"id": "C87", "title": "The box search recovers well separated events", "statement": "If the hits stem from true events numbered by their first hits such that every later hit of an event fits the box and time window of its earlier hits, no hit fits those of another event, events begin in order of time, and no event gets a hit after n others (n the number of slots) have begun since it began, then the labels are exactly the numbers of the true events: nothing is merged or split, for any number of events. In particular for hits sorted by time within a pixels (2a at most the radius) and w ns (w at most the time range) of the places and times of true events that are further apart than 2a + radius pixels or w + range ns, at most n of them within w ns of any one. The events computed are then those of the true groups; with ToT weighting and positive ToT there is exactly one event per true event, in order of first hits, with all of its hits. With one simultaneous event more than slots an event can be split.", "quantifier": "for all lists of hits with such true events, all radii in multiples of 2^-20 and time ranges, any number of slots", "why_tests_cant": "a statement about all arrangements of any number of events; tests use a few fixed clusters.", "anchors": ["sophiread/FastSophiread/src/abs.cpp:ABS::fit", "sophiread/FastSophiread/src/abs.cpp:ABS::get_events", "sophiread/SophireadLib/src/abs.cpp:ABS::fit"]}
{"id": "C88", "title": "Programs with generated hits: numbers of events", "statement": "Whatever numbers are drawn, benchmark_hits2events reports exactly one event per generated cluster in which some time over threshold is at least 1, and so does every test of benchmark_abs. The threads of benchmark_abs_thread share out the hits without loss or overlap; if the chunks are whole clusters, which is so for 12000000 clusters and 64 threads, together they find the same number of events. Otherwise clusters can be cut and counted twice, and with more threads than hits an empty vector is dereferenced. If the time drawn for the first cluster is exactly -1 the behaviour is undefined.", "quantifier": "for all numbers drawn within the ranges of the distributions, up to 12000000 clusters, all numbers of threads", "why_tests_cant": "the programs draw random numbers and never check the result.", "anchors": ["sophiread/FastSophiread/benchmarks/benchmark_hits2events.cpp:main", "sophiread/FastSophiread/benchmarks/benchmark_hits2events.cpp:fake_hits", "sophiread/SophireadLib/benchmarks/benchmark_abs.cpp:run_single_test", "sophiread/SophireadLib/benchmarks/benchmark_abs_thread.cpp:single_test"]}
{"id": "C89", "title": "Numbers in text files can be read back to six digits", "statement": "The text that is written for a finite double is a decimal number; no number of at most six significant digits is nearer to the double (of two equally near ones it is the even one), so the relative error is at most 5 * 10^-6; it has no needless zeros, and a power of ten exactly for magnitudes below 10^-4 and from 10^6 on. A spectrum file splits into the header and one line per bin, whose columns are the end of the bin as such a number and the count exactly; with at most 99999 uniform bins the times read are strictly increasing; when the program ends with 0 on a well-formed file, this is so for the spectra of the neutrons (hits) of that file. The .csv file of benchmark_mmap splits likewise into lines with position, time of flight, number of hits (exactly) and time over threshold, after what the file held before. With more bins different bins can end at the same time in the file, and neutrons one clock cycle apart can have the same line.", "quantifier": "for all finite doubles, bin edges, images, neutrons and earlier contents of the file", "why_tests_cant": "2^64 doubles and their roundings; tests of the spectrum look at a few round numbers.", "anchors": ["sophiread/SophireadCLI/src/sophiread_core.cpp:writeSpectralFile", "sophiread/FastSophiread/benchmarks/benchmark_mmap.cpp:saveEventsToCSV"]}
{"id": "C90", "title": "Every decoder recovers the true hits from a recording that stays within its clock window", "statement": "Take what the detector really saw: pulses and pixel hits with absolute times, reported in packets that carry only the low bits, with a time packet now and then. If every pulse and hit is at most 25.8 s before and less than 1 s after the last time packet and every hit within one frame after its pulse, GDC mode reports exactly the true hits with position, time over threshold, absolute time and time of flight, leaving out those before the first time packet or pulse. TDC mode does so for the first 53 s, SophireadLib for times within 26.8 s after the time packet, sophiread_display within one period of its 30-bit clock (low 30 bits, no gap between the chips). Where the conditions overlap all decoders agree, the bytes determine the hits, and the hits file of the program holds them. Each limit is sharp (the frame in GDC mode): one tick beyond, a history exists that is decoded wrongly.", "quantifier": "for all histories of pulses and hits on any chips and all datasets they are sent in", "why_tests_cant": "no test compares decoded times with true times; the rules about roll-over only show in runs of minutes.", "anchors": ["sophiread/FastSophiread/src/hit.cpp:Hit::Hit", "sophiread/FastSophiread/src/tpx3_fast.cpp:extractHits", "sophiread/FastSophiread/src/tpx3_fast.cpp:updateTimestamp", "sophiread/SophireadLib/src/tpx3.cpp:parseRawBytesToHits", "sophiread_display/mainwindow.cpp:filetohits"]}
{"id": "C91", "title": "The events file has one neutron per true event, near its place and time", "statement": "If the hits of a recording stem from true events (each hit within a pixels and w ns of its event, hits in order of time, events farther apart than 2a + radius pixels or w + range ns, at most eight at a time), then clustering and centroid give exactly one neutron per event, in the order of the events: its position is within a pixels of the event (up to 2^-41 for rounding), its time of flight within the w ns of the event after its own pulse, its number of hits and summed time over threshold exact. The command line program in GDC mode returns 0 on the file of such a recording, and the events file that it leaves holds exactly these neutrons.", "quantifier": "for all recordings of isolated events, all configurations with the default size of images", "why_tests_cant": "tests have no ground truth: they compare counts of events with earlier counts.", "anchors": ["sophiread/SophireadCLI/src/sophiread.cpp:main", "sophiread/FastSophiread/src/abs.cpp:ABS::fit", "sophiread/FastSophiread/src/abs.cpp:ABS::get_events", "sophiread/FastSophiread/src/centroid.cpp:Centroid::fit"]}
{"id": "C92", "title": "Time-of-flight images and spectra count the true events and hits", "statement": "In neutron mode and GDC timing, on the file of a recording of isolated events, the program returns 0, and there is one cell (bin, column, row, or none) for every true event, within a pixels of the event and in a bin that the times of flight of the event reach (none only if they reach the first or the last edge), such that every pixel of every image on disk has grown by exactly the number of events with that cell, modulo 2^32, and every row of the spectra is the number of events with that bin. In hit mode, in both timing modes, every pixel has grown by the number of true hits at that pixel whose time of flight is in the bin.", "quantifier": "for all recordings, all finite increasing bin edges, all earlier images on disk", "why_tests_cant": "no test knows the truth behind a file; images of tests are hand-made batches of a few hits.", "anchors": ["sophiread/SophireadCLI/src/sophiread.cpp:main", "sophiread/SophireadCLI/src/sophiread_core.cpp:updateTOFImages", "sophiread/SophireadCLI/src/sophiread_core.cpp:timedSaveTOFImagingToTIFF", "sophiread/SophireadCLI/src/sophiread_core.cpp:writeSpectralFile"]}
{"id": "C93", "title": "The GUI finds the true events of a run", "statement": "SophireadGUI, given the file of a run, reads exactly the true hits with their absolute times, whatever time packets and pulses the file has, if hits follow each other within 13.4 s or come in the first 26.8 s after the clock was reset; the time of flight is the time in the frame of 666667 ticks of the clock. If the hits stem from isolated events (at most four at a time, within 2 pixels and 75 ns), it keeps one neutron per event, in order, within a pixels and w ns of the event, and shows the true numbers of hits and events; the file of events saved afterwards has one row per event. A file that begins 26.8 s after the reset or has a gap of 13.4 s is misdated.", "quantifier": "for all histories of pulses and hits on any chips, all datasets they are sent in, all earlier states of the GUI", "why_tests_cant": "the GUI has no tests; roll-overs only show in runs of more than 13 s.", "anchors": ["sophiread/SophireadGUI/src/mainwindow.cpp:MainWindow::handlereadfile", "sophiread/SophireadGUI/src/mainwindow.cpp:MainWindow::handlesavedata", "sophiread/SophireadLib/src/tpx3.cpp:packetToHitAlt", "sophiread/SophireadLib/src/abs.cpp:ABS::fit"]}
{"id": "C94", "title": "The version script keeps one consistent version", "statement": "If include/version.h states the version a.b.c (each part defined once, spaces before the name, no other digits in the line, no leading zeros), `version.sh print` prints it, which is what the build asks for, `print part` that part, and `release part` (patch if none is given) changes the file to state the next version, which is later, and prints it; a dry run prints the same and changes nothing. For any files, the version a successful release prints is the one printed from then on, no run changes the changelog or anything of the version file but the numbers of the three definitions and the blanks before them, and only a release that is not dry changes anything. The check succeeds exactly if the first release in the changelog has the version, so it fails after a release until the changelog is changed. Unknown flags, actions and parts and missing files are refused with all files as they were. Several words in one argument count as so many arguments. VERSION_NUMBER orders versions with minor and patch below 256. Not so: leading zeros (2.3.010 is followed by 2.3.9), digits in a comment (a release fails after changing the file), tabs after #define, anything after `--`, minor versions from 256.", "quantifier": "for all contents of the version file and the changelog and all arguments without wildcards", "why_tests_cant": "a test would have to rewrite the version file; the failing cases need unusual but valid headers.", "anchors": ["sophiread/scripts/version.sh:get_version_part", "sophiread/scripts/version.sh:commit_version_part", "sophiread/scripts/version.sh:bump_version", "sophiread/scripts/version.sh:check_version", "sophiread/scripts/version.sh:parse_command", "sophiread/include/version.h:VERSION_NUMBER"]}
{"id": "C95", "title": "The auto reducer counts every true event and hit of a run once", "statement": "Let every raw file of a run be complete when it is seen, carry true hits (GDC times as in C90, of isolated events in neutron mode as in C91) and bring its own time packets before its first pulse and hit, and let saving succeed. Then, when the *.nxs.h5 file appears, the auto reducer ends with code 0 and every pixel of the images on disk has grown by exactly the number of true events (each at one cell within a pixels of it and in a bin its time belongs to) or true hits there of all the files that were in the directory at some scan, each file once however often it was seen; and any two courses of scans that see the same files end with the same images.", "quantifier": "for all files, directories, histories of scans, orders, configurations with one image pixel per sensor pixel, initial images", "why_tests_cant": "tests never run the reducer over several scans, and the true times of recorded data are not known.", "anchors": ["sophiread/SophireadCLI/src/venus_auto_reducer.cpp:process_existing_files", "sophiread/SophireadCLI/src/venus_auto_reducer.cpp:monitor_directory", "sophiread/SophireadCLI/src/sophiread_core.cpp:timedCreateTOFImages", "sophiread/FastSophiread/src/tpx3_fast.cpp:updateTimestamp"]}
{"id": "C96", "title": "The streaming program tells the true hits and events", "statement": "Let a file carry true hits (every pulse and hit within 26.8 s after the last time packet and each hit within a frame of its pulse, as in C90) and be readable to its end (it ends in a packet that is no pixel packet, or in a few stray bytes). Then the streaming program decodes exactly the true hits, each once and in order; whereas a file that ends in a pixel packet makes it find the last hit again once for every packet of the last dataset. If the hits stem from isolated events (as in C91, at most 4 at a time), then every run divides the true hits into batches of 10000, a lost piece of fewer than 10000 hits, and a rest; and for every batch it reports, each once, exactly those true events that have at least 8 hits in the batch and that the fit puts on the positive side of both axes, with the number of these hits and, if any of them is above the median, with a time of flight in ns within the duration of the event. The output file holds exactly the reported events, or there are none and the program aborts without writing, or the HDF5 library has failed. Every division of the true hits is that of some run.", "quantifier": "for all recordings, true events, schedules of the two threads, results of the fit, disks", "why_tests_cant": "the true times of recorded data are not known, the division into batches depends on the schedule of two threads, and tests never look at the events of a run.", "anchors": ["sophiread/SophireadStreamCLI/src/sophiread_stream.cpp:main", "sophiread/SophireadStreamCLI/src/sophiread_stream.cpp:process_batch", "sophiread/SophireadLib/src/abs.cpp:ABS::get_events", "sophiread/SophireadStreamCLI/src/sophiread_stream.cpp:reader"]}
{"id": "C97", "title": "sophiread_display saves the true times and events of a recording", "statement": "Let a file carry true hits, all times in one period of the 30-bit clock and each dataset of a size that the display reads as a whole. After the file has been read, the window tells the number of its true hits, and the saved spectrum holds for every step of 100 ns the number of true hits with this time of flight in columns from 251 and rows from 126 of their chips, modulo 2^32. If the hits stem from isolated events (each within 2 pixels and 74 ns, events more than 2a + 9 pixels or w + 50 ns apart, at most 127 at a time, at most 4096 hits each), then no session that reads this file becomes undefined unless a file cannot be opened, and the saved image has, for all hits but at most the last 4095, one count for every event of more than 10 hits, at the rotated place of the event to within a pixels (and one eighth for truncation), except for the last 127 events that have begun; events outside of the image are left out. So a recording of 127 events shows nothing. A session that uses all hits exists.", "quantifier": "for all recordings, events, rotations, earlier sessions, schedules of the threads and the timer", "why_tests_cant": "the display has no tests; true events of recorded data are not known and the threads end at different hits in different runs.", "anchors": ["sophiread_display/mainwindow.cpp:filetohits", "sophiread_display/mainwindow.cpp:handlereadfile", "sophiread_display/mainwindow.cpp:handlesavedata", "sophiread_display/hit_worker.cpp:runme"]}
{"id": "C98", "title": "DBSCAN finds the true events", "statement": "Let the hits stem from true events, each of at least the minimal number of hits, linked in time, joined in the plane by steps of at most epsilon such that each hit has the minimal number of other hits of the event within epsilon, and let hits of different events never be both linked in time and within epsilon in the plane. Then fit succeeds and finds exactly one event per true event: every hit has the label of its own event, the event counts its hits and is at the mean of their columns and rows, so between the smallest and largest of them, with time over threshold zero; whatever was fitted before and whatever the chunk size. Its time is the mean time of arrival of all hits linked to it in time: that of its own hits, so between the first and the last, if no other event is linked to it, but possibly later than all its hits if there is one.", "quantifier": "for all lists of hits, true events, radii and minimal sizes, chunk sizes, earlier states of the object", "why_tests_cant": "tests compare numbers of events of hand-made hits; the answer of the library depends on the order of the hits.", "anchors": ["sophiread/SophireadLib/src/dbscan.cpp:DBSCAN::fit", "sophiread/SophireadLib/src/dbscan.cpp:DBSCAN::mergeTimeClusters1D", "sophiread/SophireadLib/src/dbscan.cpp:DBSCAN::fit2D"]}
{"id": "C99", "title": "The benchmark script compares all configurations", "statement": "benchmark.sh runs the program benchmark_mmap once as a baseline and then, for reading or mapping the file, with or without threads, the asked number of times, and compares the result files with the baseline. Without earlier result files of this kind it never reports a mismatch: for extension csv, bin or h5 either nothing was written and no file is inspected, or all runs wrote the same file and 1 + 4 n files match, or 1 + 2 n if the data file is not writable, as the mapping runs then fail unnoticed; no other file changes. For a well-formed data file the script ends, inspects no file exactly if there are no events, and every result file holds all events. Without the data file or with another extension nothing is written and inspected. A second run again reports that all match for bin and h5; for csv the files are appended to, and with another number of tries it reports as mismatched, for each configuration, the tries that only one of the runs made.", "quantifier": "for all data files, ways of sharing the work among the threads, numbers of tries, states of the disk", "why_tests_cant": "depends on thread scheduling, on the permissions of the data file and on files left by earlier runs.", "anchors": ["sophiread/FastSophiread/benchmarks/benchmark.sh:ITR", "sophiread/FastSophiread/benchmarks/benchmark.sh:differences"]}
{"id": "C100", "title": "Events do not depend on the order of the hits", "statement": "The event of a cluster of up to 2^21 decoded hits is the same for every order of its hits, and for every order and bracketing in which a compiler may add up the four sums of the centroid; with division by the reciprocal or not, the position is the weighted mean up to a relative error of 2^-51. If hits of true events in two orders can both be told apart by the box search, it finds the same events for both, in some order, whatever the number of open clusters. In general it does not: for hits of one and the same time the order can decide whether they are one event or two. With DBSCAN, true events as in C98 give the same events for every order of the hits, every chunk size and every earlier state of the object.", "quantifier": "for all clusters, permutations, bracketings of the sums, lists of hits of true events", "why_tests_cant": "tests have one order of the hits and one compiled program; sums of doubles depend on their order in general.", "anchors": ["sophiread/FastSophiread/src/centroid.cpp:Centroid::fit", "sophiread/FastSophiread/src/abs.cpp:ABS::fit", "sophiread/FastSophiread/src/abs.cpp:ABS::get_events", "sophiread/SophireadLib/src/dbscan.cpp:DBSCAN::fit"]}
{"id": "C101", "title": "The converter and the GDC extractor tell the true times", "statement": "Of any recording of true times the manufacturer's converter writes one pixel line per pixel packet, and these lines, after those of pixels that fire before the first reference, are the true hits in order: position, time modulo the 30-bit clock correctly rounded, time over threshold. But a recording that starts with a reference, as the times of pulses and hits are only known after it, always makes the converter use an unset variable. With the file in one chunk the table of the GDC extractor has exactly one line for each reference of the file, in order, with its chip, its true time and its time in ns; with smaller chunks all lines are among these. The table of a history told in packets lists the reference times of the history.", "quantifier": "for all recordings and histories, chunk sizes and incomplete words at the end", "why_tests_cant": "the true times are not part of any test; every start of a recording.", "anchors": ["sophiread/resources/manufacture/tpx3cam.cpp:main", "sophiread/FastSophiread/src/gdc_processor.cpp:GDCProcessor::processChunk", "sophiread/SophireadCLI/src/gdc_extractor.cpp:GDCExtractor::process"]}
{"id": "C102", "title": "The benchmark programs report the true hits and events", "statement": "On a file that records the hits of isolated true events, benchmark_mmap with tgdc and an output file .csv or .h5 returns 0, whatever the way in which the batches are shared out: the number of hits is that of the true hits, the number of events at least that of the true events (equal if the file is processed in one window), and the output has one neutron per true event, in order, that tells place, number of hits and time over threshold of the event. The time of flight written is 25 times too large: it lies in 25 times the window of the event. At 60 Hz the bad hits are the true hits from 16.675 microseconds after their pulse. benchmark_raw2events, on a file that records any true hits, reports their number, no bad hit and the latest true arrival, saves exactly the true hits, and without an older file reads back the arrival it reported.", "quantifier": "for all recordings of true hits and isolated events, schedules, window sizes from 2, options with tgdc and earlier disk contents", "why_tests_cant": "the true events are not part of any test; no benchmark is run by tests.", "anchors": ["sophiread/FastSophiread/benchmarks/benchmark_mmap.cpp:main", "sophiread/FastSophiread/benchmarks/benchmark_mmap.cpp:saveEventsToCSV", "sophiread/FastSophiread/benchmarks/benchmark_raw2events.cpp:main", "sophiread/FastSophiread/benchmarks/benchmark_raw2events.cpp:check_bad_tof"]}
{"id": "C103", "title": "No place and no time is special to the clustering", "statement": "If all hits are moved - shifted along the sensor, reflected, with exchanged axes, or shifted in time, in any combination - the box search gives them the same labels, and the centroid events are the moved events, one for one and in order: time of flight, time over threshold and number of hits are identical, coordinates agree to 2^-40 pixels, and exactly if they are not shifted or reflected. Two runs of the command line program with GDC timing whose true hits differ by a delay of every dataset write the same neutron columns, and the same images if the earlier images were the same; in particular a history told again any time later (until the 48-bit clock ends).", "quantifier": "for all lists of hits in range, all motions that keep them in range, radii in multiples of 2^-20, numbers of slots, histories and delays", "why_tests_cant": "relates two runs on unbounded inputs; tests look at single runs.", "anchors": ["sophiread/FastSophiread/src/abs.cpp:ABS::fit", "sophiread/FastSophiread/src/abs.cpp:ABS::get_events", "sophiread/FastSophiread/src/centroid.cpp:Centroid::fit", "sophiread/SophireadCLI/src/sophiread.cpp:main"]}
{"id": "C104", "title": "A recording may be cut into two runs", "statement": "Let two histories each bring their own time packets before their first pulse and hit, with times near enough to these for the timing mode (as in C90). Process the files of both by two runs of the command line program with the same options, one after the other, or the concatenated file by a single run from the same disk. Then the columns of the hits file and the events file of the single run are those of the first run followed by those of the second, and every pixel of every time-of-flight image is the same on both disks.", "quantifier": "for all histories, both timing modes, both binning modes, all configurations and earlier images", "why_tests_cant": "compares three runs, the second on what the first has left; tests never run the program twice.", "anchors": ["sophiread/SophireadCLI/src/sophiread.cpp:main", "sophiread/SophireadCLI/src/sophiread_core.cpp:timedSaveTOFImagingToTIFF", "sophiread/SophireadCLI/src/sophiread_core.cpp:updateTOFImages", "sophiread/FastSophiread/src/tpx3_fast.cpp:updateTimestamp"]}
{"id": "C105", "title": "The minimum cluster size only leaves out small events", "statement": "The minimum cluster size plays no part in the grouping of hits: with a larger minimum, and the other settings alike, the labels of the hits are the same and the neutrons are exactly those of the smaller minimum that have enough hits, in the same order and with the same values, for each peak fitting method. Two completed runs of the command line program that differ in it write the same hits, the second events file is the first without the smaller events, and its neutron images count just these. On a recording of isolated true events the program returns 0 and writes exactly one neutron for each true event with at least the minimum number of hits, close to it in place and time of flight, in order.", "quantifier": "for all lists of hits, settings, minimum sizes, fitting methods, recordings of isolated events and earlier disk contents", "why_tests_cant": "relates runs with different settings; tests use single settings.", "anchors": ["sophiread/FastSophiread/src/abs.cpp:ABS::get_events", "sophiread/FastSophiread/src/abs.cpp:ABS::fit", "sophiread/SophireadCLI/src/sophiread.cpp:main"]}
{"id": "C106", "title": "Clustering conserves the charge and its centre", "statement": "For all decoded hits and however the box search groups them: the summed time over threshold of the centroid events is never larger than that of the hits, nor is the summed number of hits. With a minimum cluster size of at most one it is exactly that of the hits, the sum of x (and of y) weighted by time over threshold is that of the hits up to a relative error of 2^-51, and only hits of time over threshold zero can be missing in the events. The same holds between the columns of the hits file and the events file of any completed run of the command line program, in both timing modes, whatever the file and the settings; the coordinates in the events file are finite.", "quantifier": "for all lists of up to 2^21 decoded hits, settings and slots; all files processed by a completed run", "why_tests_cant": "sums over unbounded files with rounding in every event; a single test file shows neither exactness nor the only exception.", "anchors": ["sophiread/FastSophiread/src/abs.cpp:ABS::get_events", "sophiread/FastSophiread/src/centroid.cpp:Centroid::fit", "sophiread/SophireadCLI/src/sophiread.cpp:main"]}
{"id": "C107", "title": "With fewer bins, images and spectra add up", "statement": "Take some of the bin edges, among them the last. An entry lands in a bin between two of the edges taken exactly if it lands in one of the original bins between them, also if it lies on an edge. So for two completed runs of the command line program on the same recording, with the same settings except for such edges, every pixel of every image of the second run is the sum, in 32 bits, of that pixel in the images of the first run for the bins joined, if this was so for the images on the disks before. Each row of its spectrum has the sum of the counts of the rows joined and the label of the last of them.", "quantifier": "for all recordings, edges and choices of edges, both binning modes and timing modes, super resolutions and earlier images", "why_tests_cant": "relates two runs for all choices of edges; values on edges and counter overflow are not tested.", "anchors": ["sophiread/SophireadCLI/src/sophiread_core.cpp:updateTOFImages", "sophiread/SophireadCLI/src/sophiread_core.cpp:writeSpectralFile", "sophiread/SophireadCLI/src/sophiread.cpp:main"]}
{"id": "C108", "title": "The auto reducer makes the same images as the command line program", "statement": "Raw files appear in the auto reducer's input directory, in any order and spread over any number of scans, until the run ends; every file brings its own time packets before its first hit or pulse. Run the command line program once for each of these files instead, one run after the other, in any order, with GDC timing, the same settings, mode and image names, starting from the same earlier images, and let each run complete. Then the auto reducer returns 0, and every pixel of every image is the same in both cases.", "quantifier": "for all files, orders, scans, settings with super resolution 1, both modes, earlier images, contents of the scans before and after", "why_tests_cant": "relates two programs on all courses of a run; the tests never run both.", "anchors": ["sophiread/SophireadCLI/src/venus_auto_reducer.cpp:process_existing_files", "sophiread/SophireadCLI/src/venus_auto_reducer.cpp:monitor_directory", "sophiread/SophireadCLI/src/sophiread.cpp:main", "sophiread/SophireadCLI/src/sophiread_core.cpp:timedSaveTOFImagingToTIFF"]}
{"id": "C109", "title": "Super resolution spreads the hits without changing the numbers", "statement": "With an integer super resolution k, a hit lands at k times the place, in both directions and in the same bin, where it lands without. So for two completed runs of the command line program in hit mode on the same recording with the same bins and timing, one with super resolution 1 and one with k: pixel (x, y) of each image of the first run grows by as much as pixel (kx, ky) of the second; every pixel of the second whose column or row is not a multiple of k stays as it was; and both write the same spectra.", "quantifier": "for all recordings, k with images of at most 2^31 - 1 columns, bins, both timing modes, clustering settings and earlier images", "why_tests_cant": "relates two runs for all resolutions; the tests look at sizes of images only.", "anchors": ["sophiread/SophireadCLI/src/sophiread_core.cpp:updateTOFImages", "sophiread/SophireadCLI/src/sophiread_core.cpp:initializeTOFImages", "sophiread/SophireadCLI/src/sophiread.cpp:main"]}
{"id": "C110", "title": "Chunk size, names, threads and, early in a run, the timing mode do not matter", "statement": "Two completed runs of the command line program on the same recording with the same configuration write the same hits, the same neutrons and, in the same binning mode, the same spectra, and turn the same earlier images into the same images, whatever the chunk sizes (if they cut at datasets), the file names, the order in which threads save images and the verbosity. If every pulse and hit comes after a time packet, near enough to it, in the first 53 s of a run, even the timing mode does not matter.", "quantifier": "for all recordings, pairs of options, configurations, thread orders, super resolutions and earlier files", "why_tests_cant": "relates pairs of runs; the tests run one set of options and look at the existence of files.", "anchors": ["sophiread/SophireadCLI/src/sophiread.cpp:main", "sophiread/SophireadCLI/src/sophiread_core.cpp:timedSaveTOFImagingToTIFF", "sophiread/FastSophiread/src/tpx3_fast.cpp:updateTimestamp", "sophiread/FastSophiread/src/hit.cpp:Hit::Hit"]}
{"id": "C111", "title": "The parts of a recording may come in any order", "statement": "If a recording consists of parts that each have time packets of their own before the first hit or pulse (near enough for the timing mode), then processing the parts joined in another order gives the same hits and the same neutrons in another order, the same spectra, and turns the same earlier images into the same images.", "quantifier": "for all lists of parts, permutations of them, options, configurations, super resolutions and earlier files", "why_tests_cant": "relates pairs of runs on rearranged recordings; no test rearranges one.", "anchors": ["sophiread/SophireadCLI/src/sophiread.cpp:main", "sophiread/FastSophiread/src/tpx3_fast.cpp:updateTimestamp", "sophiread/FastSophiread/src/tpx3_fast.cpp:extractHits", "sophiread/FastSophiread/src/abs.cpp:fit"]}
{"id": "C112", "title": "Damage to the data of some datasets stays where it is", "statement": "If two recordings differ in some consecutive datasets (pixel and other packets, chip, number and length of datasets) but these have the same time packets in the same order, then two runs of the command line program write the same hits and neutrons for everything before and after; in between there are at most as many as there are pixel packets in these datasets. Every pixel of an image and every row of a spectrum consists of a common part and of at most that many counts.", "quantifier": "for all recordings, replaced pieces, options, configurations with minimum cluster size at least 1, super resolutions and earlier files", "why_tests_cant": "relates pairs of runs on an intact and a damaged recording; no test damages one.", "anchors": ["sophiread/SophireadCLI/src/sophiread.cpp:main", "sophiread/FastSophiread/src/tpx3_fast.cpp:updateTimestamp", "sophiread/FastSophiread/src/tpx3_fast.cpp:extractHits", "sophiread/FastSophiread/src/abs.cpp:get_events"]}
{"id": "C113", "title": "A recording that was cut short gives the beginning of the results", "statement": "If the program processes only the first n bytes (n at least 8) of a recording, it writes exactly the first hits of the whole recording; its neutrons are the first neutrons of the whole recording, followed by at most 8191 of the dataset that was cut; no pixel of an image and no row of a spectrum has more counts than with the whole recording (in event mode: at most 8191 more). Such a run ends normally unless the file ends inside a payload packet; in that case it never returns 0, and if the file is read in one chunk it reads beyond the end of its buffer.", "quantifier": "for all recordings, places of the cut, options, configurations, super resolutions and earlier files", "why_tests_cant": "every byte position of every recording is a place where an acquisition may break off; the tests only have whole files.", "anchors": ["sophiread/SophireadCLI/src/sophiread.cpp:main", "sophiread/FastSophiread/src/disk_io.cpp:TPX3FileReader::readChunk", "sophiread/FastSophiread/src/tpx3_fast.cpp:findTPX3H", "sophiread/FastSophiread/src/tpx3_fast.cpp:extractHits"]}
{"id": "C114", "title": "Where datasets end matters to events, but not to hits", "statement": "Two recordings that have the same packets of the same chips in the same order, however these are spread over datasets and whatever else the headers say, give the same hits file and, in hit mode, the same images and spectra, even under different clustering parameters. This is false of neutrons: an event whose hits lie on both sides of the end of a dataset is written as two neutrons (witness: two neighbouring pixels 25 ns apart).", "quantifier": "for all recordings, ways to divide them into datasets, options, clustering parameters, super resolutions and earlier files", "why_tests_cant": "relates all ways of dividing a recording; the tests use one file.", "anchors": ["sophiread/SophireadCLI/src/sophiread.cpp:main", "sophiread/FastSophiread/src/tpx3_fast.cpp:updateTimestamp", "sophiread/FastSophiread/src/tpx3_fast.cpp:extractHits", "sophiread/FastSophiread/src/abs.cpp:fit"]}
{"id": "C115", "title": "Datasets between time packets may come in any order", "statement": "If datasets that carry no time packets change places with each other (as those of different chips do between two time packets), the program writes the same hits and the same neutrons in another order, and the same images and spectra.", "quantifier": "for all recordings, exchanges of neighbouring datasets without time packets, options, configurations, super resolutions and earlier files", "why_tests_cant": "relates all interleavings of the chips; the tests use one file.", "anchors": ["sophiread/SophireadCLI/src/sophiread.cpp:main", "sophiread/FastSophiread/src/tpx3_fast.cpp:updateTimestamp", "sophiread/FastSophiread/src/tpx3_fast.cpp:extractHits", "sophiread/FastSophiread/src/abs.cpp:fit"]}
{"id": "C116", "title": "With GDC timing the program recovers from damaged time packets, with TDC timing it does not", "statement": "If two recordings differ in some consecutive datasets in whatever way, time packets included, then with GDC timing two runs write the same hits and neutrons before these datasets and from the datasets on that follow the next reference (low and high half) and pulse; images and spectra share all counts but at most one per pixel packet in between. With TDC timing this is false: after one damaged pulse packet the hits of all later datasets may lack a time of flight although these have their own reference and pulses.", "quantifier": "for all recordings, replaced pieces, states of the clock, options, configurations with minimum cluster size at least 1 and earlier files", "why_tests_cant": "relates pairs of runs on an intact and an arbitrarily damaged recording; no test damages one.", "anchors": ["sophiread/SophireadCLI/src/sophiread.cpp:main", "sophiread/FastSophiread/src/tpx3_fast.cpp:updateTimestamp", "sophiread/FastSophiread/src/tpx3_fast.cpp:extractHits", "sophiread/FastSophiread/src/abs.cpp:get_events"]}
{"id": "C117", "title": "Running the program again multiplies the images and nothing else", "statement": "Run the command line program n times (n at least 1) over the same recording with the same options, each run on the files the one before has left. Then the hits file and the events file have the same columns as after a single run and the spectrum has the same rows, but every pixel of every time-of-flight image holds what was there before the first run plus n times the counts of a single run, modulo 2^32. So the images no longer agree with the spectrum written beside them.", "quantifier": "for all recordings, numbers of runs, options, configurations (for the spectrum: minimum cluster size at least 1 and fewer than 2^32 packets) and earlier files", "why_tests_cant": "an induction over the number of runs, each on the files of the one before; tests never run the program twice.", "anchors": ["sophiread/SophireadCLI/src/sophiread.cpp:main", "sophiread/SophireadCLI/src/sophiread_core.cpp:timedSaveTOFImagingToTIFF", "sophiread/SophireadCLI/src/sophiread_core.cpp:timedCreateTOFImages"]}
