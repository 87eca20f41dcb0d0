-Q theories Verif
theories/Base.v
theories/IoCtx.v
theories/Text.v
theories/MobId.v
theories/Exp10.v
theories/Storable.v
theories/Attributes.v
theories/Components.v
theories/TrackGroups.v
theories/RoundTrip.v
theories/TextProofs.v
theories/MobIdProofs.v
theories/UrnProofs.v
theories/PrimProofs.v
theories/FieldProofs.v
theories/ClassTac.v
theories/ComponentsProofs.v
theories/TrackGroupsProofs.v
theories/props/Primitives.v
theories/Misc.v
theories/MiscProofs.v
theories/Essence.v
theories/EssenceProofs.v
theories/BinModel.v
theories/BinProofs.v
theories/Fits.v
theories/FitsProofs.v
theories/Samples.v
theories/Saved.v
theories/MapProofs.v
theories/SavedProofs.v
theories/OrderProofs.v
theories/LocProofs.v
theories/RefsProofs.v
theories/GotProofs.v
theories/GotClasses.v
theories/ResaveSpec.v
theories/ResaveProofs.v
theories/Opened.v
theories/Objects.v
theories/ObjSpec.v
theories/ObjProofs.v
theories/FitRefsProofs.v
theories/ObjTheory.v
theories/SizeProofs.v
theories/Dates.v
theories/FileModel.v
theories/FileSpec.v
theories/HeaderProofs.v
theories/TableProofs.v
theories/SaveProofs.v
theories/SampleDocs.v
theories/props/Lists.v
theories/props/Clips.v
theories/props/Groups.v
theories/props/Descriptors.v
theories/props/MiscClasses.v
theories/props/Bins.v
theories/props/Chunks.v
theories/props/Files.v
theories/props/Saves.v
theories/Timeline.v
theories/FloatProofs.v
theories/Exp10Proofs.v
theories/props/Rates.v
theories/TimelineSpec.v
theories/TimelineProofs.v
theories/CurveSpec.v
theories/CurveProofs.v
theories/props/Timelines.v
theories/IntegrateSpec.v
theories/IntegrateProofs.v
theories/HalfProofs.v
theories/props/Integration.v
theories/Names.v
theories/NamesSpec.v
theories/NamesProofs.v
theories/DateSpec.v
theories/DateProofs.v
theories/props/NamesDates.v
theories/Mobs.v
theories/MobsSpec.v
theories/MobsProofs.v
theories/props/Mobs.v
theories/RefList.v
theories/RefListSpec.v
theories/RefListProofs.v
theories/props/RefLists.v
theories/DocModel.v
theories/DocSpec.v
theories/DocProofs.v
theories/props/Documents.v
theories/ForeignProofs.v
theories/props/Foreign.v
theories/Copy.v
theories/CopySpec.v
theories/CopyProofs.v
theories/CopyEnds.v
theories/CopyTree.v
theories/CopyTheory.v
theories/props/Copies.v
theories/Ext.v
theories/ExtSpec.v
theories/ExtSim.v
theories/ExtStrict.v
theories/ExtProofs.v
theories/ExtRead.v
theories/ExtWritten.v
theories/props/Ext.v
theories/Bezier.v
theories/BezierSpec.v
theories/BezierProofs.v
theories/props/Smooth.v
theories/ResaveTheory.v
theories/ResaveSamples.v
theories/MoveProofs.v
theories/AgainProofs.v
theories/props/Resave.v
theories/props/Again.v
theories/Edited.v
theories/EditSpec.v
theories/EditProofs.v
theories/EditSamples.v
theories/props/Edits.v
theories/Lookups.v
theories/LookupSpec.v
theories/LookupProofs.v
theories/LookupSamples.v
theories/props/Finds.v
theories/Made.v
theories/MadeSpec.v
theories/MadeProofs.v
theories/MadeTheory.v
theories/props/Making.v
theories/Conformance.v
theories/BothOrders.v
theories/SaveOver.v
theories/SaveOverProofs.v
theories/ExtDoc.v
theories/ExtUnique.v
theories/ExtDocProofs.v
theories/ChainSpec.v
theories/ChainTheory.v
theories/props/Chains.v
theories/props/Overwriting.v
theories/props/ExtDocs.v
theories/Params.v
theories/ParamSpec.v
theories/ParamProofs.v
theories/RefInfo.v
theories/RefInfoProofs.v
theories/props/Parameters.v
theories/props/References.v
theories/MovedSpec.v
theories/MovedProofs.v
theories/props/Moving.v
theories/Slices.v
theories/SliceSpec.v
theories/SliceProofs.v
theories/props/Slicing.v
theories/Closing.v
theories/ClosingSpec.v
theories/ClosingProofs.v
theories/props/Closed.v
theories/PropDefs.v
theories/PropDefSpec.v
theories/PropDefProofs.v
theories/props/Properties.v
