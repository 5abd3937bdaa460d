Tests of the model against the outputs that the tests of the project expect.
They are not proofs and are not part of the build.

Run a script in a scratch directory and compile what it writes, after a build:

    python3 /verif/validation/commands.py && coqc -Q /verif/rocq/theories Verif val.v
    python3 /verif/validation/probe.py && coqc -Q /verif/rocq/theories Verif val2.v

* commands.py: the four outputs of dump_test.go on testdata/sample.mp4, the outputs
  of psshdump_test.go.
* probe.py prints values to compare with the tests: the sizes of extract_test.go; the results of Probe and the bitrates in
  probe_test.go.
