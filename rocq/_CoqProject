-Q theories Verif
theories/Again4Proofs.v
theories/Again4Props.v
theories/Again4Spec.v
theories/Cgns.v
theories/CgnsIc3Proofs.v
theories/CgnsIc3Props.v
theories/CgnsIc3Spec.v
theories/CgnsProps.v
theories/CgnsSpec.v
theories/CheckProofs.v
theories/Cli.v
theories/CliProps.v
theories/CmdLine.v
theories/CmdLineProofs.v
theories/CmdLineProps.v
theories/CmdLineSpec.v
theories/Conn.v
theories/ConnProofs.v
theories/ConnProps.v
theories/ConnSpec.v
theories/Conv4Proofs.v
theories/Conv4Props.v
theories/Conv4Spec.v
theories/ConvProofs.v
theories/ConvProps.v
theories/ConvSpec.v
theories/CsrProofs.v
theories/CubeFaces.v
theories/CubeMarks.v
theories/CubeReady.v
theories/CubeThm.v
theories/Data.v
theories/DataList.v
theories/DataListProps.v
theories/DataProps.v
theories/Elements.v
theories/Extrude.v
theories/ExtrudeMore.v
theories/ExtrudeProofs.v
theories/ExtrudeProps.v
theories/ExtrudeSpec.v
theories/FaceProofs.v
theories/FaceProps.v
theories/FaceSetProofs.v
theories/FaceSpec.v
theories/FaceTable.v
theories/FaceThm.v
theories/Files.v
theories/FilesProofs.v
theories/FilesProps.v
theories/FilesSpec.v
theories/Gmsh.v
theories/GmshFileProofs.v
theories/GmshIc3Props.v
theories/GmshIc3Spec.v
theories/GmshProofs.v
theories/GmshProps.v
theories/GmshSpec.v
theories/GroupFacts.v
theories/Hdf5.v
theories/Hdf5Open.v
theories/Hdf5OpenProps.v
theories/Hdf5Proofs.v
theories/Hdf5Props.v
theories/Hdf5Spec.v
theories/Ic3.v
theories/Ic3BodyProofs.v
theories/Ic3BriefProps.v
theories/Ic3BriefSpec.v
theories/Ic3Bytes.v
theories/Ic3BytesProofs.v
theories/Ic3CubeProofs.v
theories/Ic3CubeProps.v
theories/Ic3CubeSpec.v
theories/Ic3CutProofs.v
theories/Ic3Fail.v
theories/Ic3FailProofs.v
theories/Ic3FailProps.v
theories/Ic3FileProofs.v
theories/Ic3FileProps.v
theories/Ic3FileSpec.v
theories/Ic3FileThm.v
theories/Ic3FixProofs.v
theories/Ic3FixProps.v
theories/Ic3FuelProofs.v
theories/Ic3HeaderProofs.v
theories/Ic3HeaderProps.v
theories/Ic3HeaderSpec.v
theories/Ic3IntegrityProofs.v
theories/Ic3LabelProps.v
theories/Ic3LabelSpec.v
theories/Ic3LayoutProps.v
theories/Ic3LayoutSpec.v
theories/Ic3LayoutV4Props.v
theories/Ic3LayoutV4Spec.v
theories/Ic3LossProofs.v
theories/Ic3LossProps.v
theories/Ic3MeshProofs.v
theories/Ic3OkProofs.v
theories/Ic3OkSpec.v
theories/Ic3PartsProofs.v
theories/Ic3ReadProofs.v
theories/Ic3RoundProofs.v
theories/Ic3RoundSpec.v
theories/Ic3StartProps.v
theories/Ic3StopProofs.v
theories/Ic3V4.v
theories/Ic3V4Fail.v
theories/Ic3V4FailProofs.v
theories/Ic3V4FailProps.v
theories/Ic3V4MarkProofs.v
theories/Ic3V4Proofs.v
theories/Ic3V4Props.v
theories/Ic3V4SolProofs.v
theories/Ic3V4Spec.v
theories/Ic3VarProofs.v
theories/Ic3WriteProofs.v
theories/IndexHeap.v
theories/IndexHeapProofs.v
theories/IndexHeapProps.v
theories/IndexHeapSpec.v
theories/IndexList.v
theories/IndexListProofs.v
theories/IndexListProps.v
theories/IndexListSpec.v
theories/Info.v
theories/InfoProps.v
theories/InfoWhole.v
theories/InfoWholeProofs.v
theories/InfoWholeProps.v
theories/InfoWholeSpec.v
theories/LayerProofs.v
theories/LayerProps.v
theories/LayerSpec.v
theories/Lazy.v
theories/LazyProps.v
theories/MarkProps.v
theories/Memo.v
theories/MemoProps.v
theories/MergeProofs.v
theories/Mesh.v
theories/MeshProofs.v
theories/MeshProps.v
theories/MeshSpec.v
theories/PackWhole.v
theories/PackWholeProofs.v
theories/PackWholeProps.v
theories/PackWholeSpec.v
theories/Poly.v
theories/PolyProps.v
theories/PopData.v
theories/PopDataProps.v
theories/ProbePlot.v
theories/ProbePlotProps.v
theories/ProbeWhole.v
theories/ProbeWholeProofs.v
theories/ProbeWholeProps.v
theories/ProbeWholeSpec.v
theories/Probes.v
theories/ProbesProps.v
theories/Py.v
theories/PyFacts.v
theories/Race.v
theories/RaceProps.v
theories/ReaderHeap.v
theories/ReaderHeapFirst.v
theories/ReaderHeapProofs.v
theories/ReaderHeapProps.v
theories/ReaderHeapReads.v
theories/ReaderHeapSpec.v
theories/ReaderHeapSteps.v
theories/ReaderInfo.v
theories/ReaderInfoProofs.v
theories/ReaderInfoProps.v
theories/ReaderInfoSpec.v
theories/ReindexProofs.v
theories/Simple.v
theories/SimpleProofs.v
theories/SimpleProps.v
theories/SimpleSpec.v
theories/Spectrum.v
theories/SpectrumProps.v
theories/TableProofs.v
theories/TableSpec.v
theories/Timer.v
theories/TimerProps.v
theories/Vtk.v
theories/VtkBrief.v
theories/VtkBriefProps.v
theories/VtkConvProps.v
theories/VtkList.v
theories/VtkListProps.v
theories/VtkMeshProps.v
theories/VtkPack.v
theories/VtkPackProps.v
theories/VtkProofs.v
theories/VtkProps.v
theories/VtkSpec.v
theories/VtkWhole.v
theories/VtkWholeProofs.v
theories/VtkWholeProps.v
theories/VtkWholeSpec.v
theories/Whole.v
theories/WholeFailProofs.v
theories/WholeFailProps.v
theories/WholeFailSpec.v
theories/WholeProofs.v
theories/WholeProps.v
theories/WholeSpec.v
theories/XmlProofs.v
theories/XmlProps.v
theories/XmlSpec.v
theories/Zconv.v
theories/ZconvProofs.v
theories/ZconvProps.v
theories/ZconvSpec.v
